(** Generated by tools/gen_table_names.py from resources/encount/la/encounter_table_names.json:
    the names with their keys. *)
From Coq Require Import Strings.Byte.
From Verif Require Import Model.Trie Model.NameTrie.
Definition table_names : name_trie :=
(C x65 None (C x76 None (C x65 None (C x5f None (C x65 None (C x78 None (C x5f None (C x30 None (C x30 (Some (W x9c x39 x22 x4b xf1 xf0 xc6 x32)) O
(C x31 (Some (W x4f x3b x22 x4b xf1 xf1 xc6 x32)) O
(C x32 (Some (W x02 x3d x22 x4b xf1 xf2 xc6 x32)) O
(C x33 (Some (W xb5 x3e x22 x4b xf1 xf3 xc6 x32)) O
(C x34 (Some (W xd0 x32 x22 x4b xf1 xec xc6 x32)) O
(C x35 (Some (W x83 x34 x22 x4b xf1 xed xc6 x32)) O
(C x36 (Some (W x36 x36 x22 x4b xf1 xee xc6 x32)) O
(C x37 (Some (W xe9 x37 x22 x4b xf1 xef xc6 x32)) O
(C x38 (Some (W x34 x47 x22 x4b xf1 xf8 xc6 x32)) O
(C x39 (Some (W xe7 x48 x22 x4b xf1 xf9 xc6 x32)) O
O))))))))))
(C x31 None (C x30 (Some (W xa5 x79 x24 x4b xf1 xf6 xc9 x32)) (C x30 (Some (W x2f x98 xfa xae x02 x31 xa8 x71)) O
(C x31 (Some (W x7c x96 xfa xae x02 x30 xa8 x71)) O
(C x32 (Some (W x95 x9b xfa xae x02 x33 xa8 x71)) O
(C x33 (Some (W xe2 x99 xfa xae x02 x32 xa8 x71)) O
(C x34 (Some (W x63 x91 xfa xae x02 x2d xa8 x71)) O
(C x35 (Some (W xb0 x8f xfa xae x02 x2c xa8 x71)) O
(C x36 (Some (W xc9 x94 xfa xae x02 x2f xa8 x71)) O
(C x37 (Some (W x16 x93 xfa xae x02 x2e xa8 x71)) O
(C x38 (Some (W xc7 xa5 xfa xae x02 x39 xa8 x71)) O
(C x39 (Some (W x14 xa4 xfa xae x02 x38 xa8 x71)) O
O))))))))))
(C x31 (Some (W xf2 x77 x24 x4b xf1 xf5 xc9 x32)) (C x30 (Some (W xa6 x7e xf7 xae x02 xab xa4 x71)) O
(C x31 (Some (W x59 x80 xf7 xae x02 xac xa4 x71)) O
(C x32 (Some (W x40 x7b xf7 xae x02 xa9 xa4 x71)) O
(C x33 (Some (W xf3 x7c xf7 xae x02 xaa xa4 x71)) O
(C x34 (Some (W x72 x85 xf7 xae x02 xaf xa4 x71)) O
(C x35 (Some (W x25 x87 xf7 xae x02 xb0 xa4 x71)) O
(C x36 (Some (W x0c x82 xf7 xae x02 xad xa4 x71)) O
(C x37 (Some (W xbf x83 xf7 xae x02 xae xa4 x71)) O
(C x38 (Some (W x3e x8c xf7 xae x02 xb3 xa4 x71)) O
(C x39 (Some (W xf1 x8d xf7 xae x02 xb4 xa4 x71)) O
O))))))))))
(C x32 (Some (W x3f x76 x24 x4b xf1 xf4 xc9 x32)) (C x30 (Some (W x7d x9b xf4 xae x02 x45 xa1 x71)) O
(C x31 (Some (W xca x99 xf4 xae x02 x44 xa1 x71)) O
(C x32 (Some (W x17 x98 xf4 xae x02 x43 xa1 x71)) O
(C x33 (Some (W x64 x96 xf4 xae x02 x42 xa1 x71)) O
(C x34 (Some (W xb1 x94 xf4 xae x02 x41 xa1 x71)) O
(C x35 (Some (W xfe x92 xf4 xae x02 x40 xa1 x71)) O
(C x36 (Some (W x4b x91 xf4 xae x02 x3f xa1 x71)) O
(C x37 (Some (W x98 x8f xf4 xae x02 x3e xa1 x71)) O
(C x38 (Some (W xe5 x8d xf4 xae x02 x3d xa1 x71)) O
(C x39 (Some (W x32 x8c xf4 xae x02 x3c xa1 x71)) O
O))))))))))
(C x33 (Some (W x8c x74 x24 x4b xf1 xf3 xc9 x32)) (C x30 (Some (W x74 x5b xf2 xae x02 x3f x9e x71)) O
(C x31 (Some (W x27 x5d xf2 xae x02 x40 x9e x71)) O
(C x32 (Some (W xda x5e xf2 xae x02 x41 x9e x71)) O
(C x33 (Some (W x8d x60 xf2 xae x02 x42 x9e x71)) O
(C x34 (Some (W xa8 x54 xf2 xae x02 x3b x9e x71)) O
(C x35 (Some (W x5b x56 xf2 xae x02 x3c x9e x71)) O
(C x36 (Some (W x0e x58 xf2 xae x02 x3d x9e x71)) O
(C x37 (Some (W xc1 x59 xf2 xae x02 x3e x9e x71)) O
(C x38 (Some (W xdc x4d xf2 xae x02 x37 x9e x71)) O
(C x39 (Some (W x8f x4f xf2 xae x02 x38 x9e x71)) O
O))))))))))
(C x34 (Some (W xd9 x72 x24 x4b xf1 xf2 xc9 x32)) (C x30 (Some (W xeb x41 xef xae x02 xb9 x9a x71)) O
(C x31 (Some (W x38 x40 xef xae x02 xb8 x9a x71)) O
(C x32 (Some (W x51 x45 xef xae x02 xbb x9a x71)) O
(C x33 (Some (W x9e x43 xef xae x02 xba x9a x71)) O
(C x34 (Some (W xb7 x48 xef xae x02 xbd x9a x71)) O
(C x35 (Some (W x04 x47 xef xae x02 xbc x9a x71)) O
(C x36 (Some (W x1d x4c xef xae x02 xbf x9a x71)) O
(C x37 (Some (W x6a x4a xef xae x02 xbe x9a x71)) O
(C x38 (Some (W x53 x34 xef xae x02 xb1 x9a x71)) O
(C x39 (Some (W xa0 x32 xef xae x02 xb0 x9a x71)) O
O))))))))))
(C x35 (Some (W x26 x71 x24 x4b xf1 xf1 xc9 x32)) O
(C x36 (Some (W x73 x6f x24 x4b xf1 xf0 xc9 x32)) (C x5f None (C x62 (Some (W x12 x9f xc1 x35 x8f x8c xaf xe6)) O
O)
O)
(C x37 (Some (W xc0 x6d x24 x4b xf1 xef xc9 x32)) (C x5f None (C x62 (Some (W x3d xc5 x47 x31 x8f x75 x87 xde)) O
O)
O)
(C x38 (Some (W x3d x87 x24 x4b xf1 xfe xc9 x32)) (C x5f None (C x62 (Some (W x6c x34 xaa x7b x8f xca x63 x61)) O
O)
O)
(C x39 (Some (W x8a x85 x24 x4b xf1 xfd xc9 x32)) O
O))))))))))
(C x32 None (C x30 (Some (W x2e x93 x27 x4b xf1 x7c xcd x32)) O
(C x31 (Some (W xe1 x94 x27 x4b xf1 x7d xcd x32)) O
(C x32 (Some (W xc8 x8f x27 x4b xf1 x7a xcd x32)) O
(C x33 (Some (W x7b x91 x27 x4b xf1 x7b xcd x32)) O
(C x34 (Some (W xfa x99 x27 x4b xf1 x80 xcd x32)) O
(C x35 (Some (W xad x9b x27 x4b xf1 x81 xcd x32)) O
(C x36 (Some (W x94 x96 x27 x4b xf1 x7e xcd x32)) O
(C x37 (Some (W x47 x98 x27 x4b xf1 x7f xcd x32)) O
(C x38 (Some (W x96 x85 x27 x4b xf1 x74 xcd x32)) O
(C x39 (Some (W x49 x87 x27 x4b xf1 x75 xcd x32)) O
O))))))))))
(C x33 None (C x30 (Some (W xb7 xac x2a x4b xf1 x02 xd1 x32)) O
(C x31 (Some (W x04 xab x2a x4b xf1 x01 xd1 x32)) O
(C x32 (Some (W x1d xb0 x2a x4b xf1 x04 xd1 x32)) O
(C x33 (Some (W x6a xae x2a x4b xf1 x03 xd1 x32)) O
(C x34 (Some (W xeb xa5 x2a x4b xf1 xfe xd0 x32)) O
(C x35 (Some (W x38 xa4 x2a x4b xf1 xfd xd0 x32)) O
(C x36 (Some (W x51 xa9 x2a x4b xf1 x00 xd1 x32)) O
(C x37 (Some (W x9e xa7 x2a x4b xf1 xff xd0 x32)) O
(C x38 (Some (W x1f x9f x2a x4b xf1 xfa xd0 x32)) O
(C x39 (Some (W x6c x9d x2a x4b xf1 xf9 xd0 x32)) O
O))))))))))
(C x34 None (C x30 (Some (W xd8 x09 x16 x4b xf1 xf8 xb8 x32)) O
(C x31 (Some (W x8b x0b x16 x4b xf1 xf9 xb8 x32)) O
(C x32 (Some (W x3e x0d x16 x4b xf1 xfa xb8 x32)) O
(C x33 (Some (W xf1 x0e x16 x4b xf1 xfb xb8 x32)) O
(C x34 (Some (W xa4 x10 x16 x4b xf1 xfc xb8 x32)) O
(C x35 (Some (W x57 x12 x16 x4b xf1 xfd xb8 x32)) O
(C x36 (Some (W x0a x14 x16 x4b xf1 xfe xb8 x32)) O
(C x37 (Some (W xbd x15 x16 x4b xf1 xff xb8 x32)) O
(C x38 (Some (W x40 xfc x15 x4b xf1 xf0 xb8 x32)) O
(C x39 (Some (W xf3 xfd x15 x4b xf1 xf1 xb8 x32)) O
O))))))))))
(C x35 None (C x30 (Some (W x61 x23 x19 x4b xf1 x7e xbc x32)) O
(C x31 (Some (W xae x21 x19 x4b xf1 x7d xbc x32)) O
(C x32 (Some (W xfb x1f x19 x4b xf1 x7c xbc x32)) O
(C x33 (Some (W x48 x1e x19 x4b xf1 x7b xbc x32)) O
(C x34 (Some (W x2d x2a x19 x4b xf1 x82 xbc x32)) O
(C x35 (Some (W x7a x28 x19 x4b xf1 x81 xbc x32)) O
(C x36 (Some (W xc7 x26 x19 x4b xf1 x80 xbc x32)) O
(C x37 (Some (W x14 x25 x19 x4b xf1 x7f xbc x32)) O
(C x38 (Some (W xc9 x15 x19 x4b xf1 x76 xbc x32)) O
(C x39 (Some (W x16 x14 x19 x4b xf1 x75 xbc x32)) O
O))))))))))
(C x36 None (C x30 (Some (W xea x3c x1c x4b xf1 x04 xc0 x32)) O
(C x31 (Some (W x9d x3e x1c x4b xf1 x05 xc0 x32)) O
(C x32 (Some (W x84 x39 x1c x4b xf1 x02 xc0 x32)) O
(C x33 (Some (W x37 x3b x1c x4b xf1 x03 xc0 x32)) O
(C x34 (Some (W x1e x36 x1c x4b xf1 x00 xc0 x32)) O
(C x35 (Some (W xd1 x37 x1c x4b xf1 x01 xc0 x32)) O
(C x36 (Some (W xb8 x32 x1c x4b xf1 xfe xbf x32)) O
(C x37 (Some (W x6b x34 x1c x4b xf1 xff xbf x32)) O
(C x38 (Some (W x52 x2f x1c x4b xf1 xfc xbf x32)) O
(C x39 (Some (W x05 x31 x1c x4b xf1 xfd xbf x32)) O
O))))))))))
(C x37 None (C x30 (Some (W x13 x20 x1f x4b xf1 x6a xc3 x32)) O
(C x31 (Some (W x60 x1e x1f x4b xf1 x69 xc3 x32)) O
(C x32 (Some (W x79 x23 x1f x4b xf1 x6c xc3 x32)) O
(C x33 (Some (W xc6 x21 x1f x4b xf1 x6b xc3 x32)) O
(C x34 (Some (W xdf x26 x1f x4b xf1 x6e xc3 x32)) O
(C x35 (Some (W x2c x25 x1f x4b xf1 x6d xc3 x32)) O
(C x36 (Some (W x45 x2a x1f x4b xf1 x70 xc3 x32)) O
(C x37 (Some (W x92 x28 x1f x4b xf1 x6f xc3 x32)) O
(C x38 (Some (W xab x2d x1f x4b xf1 x72 xc3 x32)) O
(C x39 (Some (W xf8 x2b x1f x4b xf1 x71 xc3 x32)) O
O))))))))))
(C x38 None (C x30 (Some (W x94 xb3 x0a x4b xf1 x80 xab x32)) O
(C x31 (Some (W x47 xb5 x0a x4b xf1 x81 xab x32)) O
(C x32 (Some (W xfa xb6 x0a x4b xf1 x82 xab x32)) O
(C x33 (Some (W xad xb8 x0a x4b xf1 x83 xab x32)) O
(C x34 (Some (W xc8 xac x0a x4b xf1 x7c xab x32)) O
(C x35 (Some (W x7b xae x0a x4b xf1 x7d xab x32)) O
(C x36 (Some (W x2e xb0 x0a x4b xf1 x7e xab x32)) O
(C x37 (Some (W xe1 xb1 x0a x4b xf1 x7f xab x32)) O
(C x38 (Some (W xfc xa5 x0a x4b xf1 x78 xab x32)) O
(C x39 (Some (W xaf xa7 x0a x4b xf1 x79 xab x32)) O
O))))))))))
(C x39 None (C x30 (Some (W x1d xcd x0d x4b xf1 x06 xaf x32)) O
(C x31 (Some (W x6a xcb x0d x4b xf1 x05 xaf x32)) O
(C x32 (Some (W xb7 xc9 x0d x4b xf1 x04 xaf x32)) O
(C x33 (Some (W x04 xc8 x0d x4b xf1 x03 xaf x32)) O
(C x34 (Some (W x51 xc6 x0d x4b xf1 x02 xaf x32)) O
(C x35 (Some (W x9e xc4 x0d x4b xf1 x01 xaf x32)) O
(C x36 (Some (W xeb xc2 x0d x4b xf1 x00 xaf x32)) O
(C x37 (Some (W x38 xc1 x0d x4b xf1 xff xae x32)) O
(C x38 (Some (W x85 xbf x0d x4b xf1 xfe xae x32)) O
(C x39 (Some (W xd2 xbd x0d x4b xf1 xfd xae x32)) O
O))))))))))
O))))))))))
O)
O)
(C x6e None (C x6f None (C x5f None (C x30 None (C x30 (Some (W xb6 x51 xb8 x84 xf2 x18 x0b xce)) O
(C x31 (Some (W x69 x53 xb8 x84 xf2 x19 x0b xce)) O
(C x32 (Some (W x50 x4e xb8 x84 xf2 x16 x0b xce)) O
(C x33 (Some (W x03 x50 xb8 x84 xf2 x17 x0b xce)) O
(C x34 (Some (W x82 x58 xb8 x84 xf2 x1c x0b xce)) O
(C x35 (Some (W x35 x5a xb8 x84 xf2 x1d x0b xce)) O
(C x36 (Some (W x1c x55 xb8 x84 xf2 x1a x0b xce)) O
(C x37 (Some (W xcf x56 xb8 x84 xf2 x1b x0b xce)) O
(C x38 (Some (W x4e x5f xb8 x84 xf2 x20 x0b xce)) O
(C x39 (Some (W x01 x61 xb8 x84 xf2 x21 x0b xce)) O
O))))))))))
(C x31 None (C x30 (Some (W xbf x91 xba x84 xf2 x1e x0e xce)) (C x30 (Some (W xfd x55 x05 x89 x17 x25 x90 xdc)) O
(C x31 (Some (W x4a x54 x05 x89 x17 x24 x90 xdc)) O
(C x32 (Some (W x97 x52 x05 x89 x17 x23 x90 xdc)) O
(C x33 (Some (W xe4 x50 x05 x89 x17 x22 x90 xdc)) O
(C x34 (Some (W x31 x4f x05 x89 x17 x21 x90 xdc)) O
(C x35 (Some (W x7e x4d x05 x89 x17 x20 x90 xdc)) O
(C x36 (Some (W xcb x4b x05 x89 x17 x1f x90 xdc)) O
(C x37 (Some (W x18 x4a x05 x89 x17 x1e x90 xdc)) O
(C x38 (Some (W x65 x48 x05 x89 x17 x1d x90 xdc)) O
(C x39 (Some (W xb2 x46 x05 x89 x17 x1c x90 xdc)) O
O))))))))))
(C x31 (Some (W x0c x90 xba x84 xf2 x1d x0e xce)) (C x30 (Some (W xf4 x15 x03 x89 x17 x1f x8d xdc)) O
(C x31 (Some (W xa7 x17 x03 x89 x17 x20 x8d xdc)) O
(C x32 (Some (W x5a x19 x03 x89 x17 x21 x8d xdc)) O
(C x33 (Some (W x0d x1b x03 x89 x17 x22 x8d xdc)) O
(C x34 (Some (W x28 x0f x03 x89 x17 x1b x8d xdc)) O
(C x35 (Some (W xdb x10 x03 x89 x17 x1c x8d xdc)) O
(C x36 (Some (W x8e x12 x03 x89 x17 x1d x8d xdc)) O
(C x37 (Some (W x41 x14 x03 x89 x17 x1e x8d xdc)) O
(C x38 (Some (W x5c x08 x03 x89 x17 x17 x8d xdc)) O
(C x39 (Some (W x0f x0a x03 x89 x17 x18 x8d xdc)) O
O))))))))))
(C x32 (Some (W x25 x95 xba x84 xf2 x20 x0e xce)) (C x30 (Some (W xaf x52 x0b x89 x17 x11 x97 xdc)) O
(C x31 (Some (W xfc x50 x0b x89 x17 x10 x97 xdc)) O
(C x32 (Some (W x15 x56 x0b x89 x17 x13 x97 xdc)) O
(C x33 (Some (W x62 x54 x0b x89 x17 x12 x97 xdc)) O
(C x34 (Some (W xe3 x4b x0b x89 x17 x0d x97 xdc)) O
(C x35 (Some (W x30 x4a x0b x89 x17 x0c x97 xdc)) O
(C x36 (Some (W x49 x4f x0b x89 x17 x0f x97 xdc)) O
(C x37 (Some (W x96 x4d x0b x89 x17 x0e x97 xdc)) O
(C x38 (Some (W x47 x60 x0b x89 x17 x19 x97 xdc)) O
(C x39 (Some (W x94 x5e x0b x89 x17 x18 x97 xdc)) O
O))))))))))
(C x33 (Some (W x72 x93 xba x84 xf2 x1f x0e xce)) (C x30 (Some (W x26 x39 x08 x89 x17 x8b x93 xdc)) O
(C x31 (Some (W xd9 x3a x08 x89 x17 x8c x93 xdc)) O
(C x32 (Some (W xc0 x35 x08 x89 x17 x89 x93 xdc)) O
(C x33 (Some (W x73 x37 x08 x89 x17 x8a x93 xdc)) O
(C x34 (Some (W xf2 x3f x08 x89 x17 x8f x93 xdc)) O
(C x35 (Some (W xa5 x41 x08 x89 x17 x90 x93 xdc)) O
(C x36 (Some (W x8c x3c x08 x89 x17 x8d x93 xdc)) O
(C x37 (Some (W x3f x3e x08 x89 x17 x8e x93 xdc)) O
(C x38 (Some (W xbe x46 x08 x89 x17 x93 x93 xdc)) O
(C x39 (Some (W x71 x48 x08 x89 x17 x94 x93 xdc)) O
O))))))))))
(C x34 (Some (W xf3 x8a xba x84 xf2 x1a x0e xce)) (C x30 (Some (W x59 xc9 xf9 x88 x17 x8d x82 xdc)) O
(C x31 (Some (W xa6 xc7 xf9 x88 x17 x8c x82 xdc)) O
(C x32 (Some (W xf3 xc5 xf9 x88 x17 x8b x82 xdc)) O
(C x33 (Some (W x40 xc4 xf9 x88 x17 x8a x82 xdc)) O
(C x34 (Some (W x25 xd0 xf9 x88 x17 x91 x82 xdc)) O
(C x35 (Some (W x72 xce xf9 x88 x17 x90 x82 xdc)) O
(C x36 (Some (W xbf xcc xf9 x88 x17 x8f x82 xdc)) O
(C x37 (Some (W x0c xcb xf9 x88 x17 x8e x82 xdc)) O
(C x38 (Some (W xf1 xd6 xf9 x88 x17 x95 x82 xdc)) O
(C x39 (Some (W x3e xd5 xf9 x88 x17 x94 x82 xdc)) O
O))))))))))
(C x35 (Some (W x40 x89 xba x84 xf2 x19 x0e xce)) O
(C x36 (Some (W x59 x8e xba x84 xf2 x1c x0e xce)) O
(C x37 (Some (W xa6 x8c xba x84 xf2 x1b x0e xce)) O
(C x38 (Some (W x57 x9f xba x84 xf2 x26 x0e xce)) O
(C x39 (Some (W xa4 x9d xba x84 xf2 x25 x0e xce)) O
O))))))))))
(C x32 None (C x30 (Some (W x04 x55 xb2 x84 xf2 x2c x04 xce)) O
(C x31 (Some (W xb7 x56 xb2 x84 xf2 x2d x04 xce)) O
(C x32 (Some (W x6a x58 xb2 x84 xf2 x2e x04 xce)) O
(C x33 (Some (W x1d x5a xb2 x84 xf2 x2f x04 xce)) O
(C x34 (Some (W x38 x4e xb2 x84 xf2 x28 x04 xce)) O
(C x35 (Some (W xeb x4f xb2 x84 xf2 x29 x04 xce)) O
(C x36 (Some (W x9e x51 xb2 x84 xf2 x2a x04 xce)) O
(C x37 (Some (W x51 x53 xb2 x84 xf2 x2b x04 xce)) O
(C x38 (Some (W x6c x47 xb2 x84 xf2 x24 x04 xce)) O
(C x39 (Some (W x1f x49 xb2 x84 xf2 x25 x04 xce)) O
O))))))))))
(C x33 None (C x30 (Some (W x8d x6e xb5 x84 xf2 xb2 x07 xce)) O
(C x31 (Some (W xda x6c xb5 x84 xf2 xb1 x07 xce)) O
(C x32 (Some (W x27 x6b xb5 x84 xf2 xb0 x07 xce)) O
(C x33 (Some (W x74 x69 xb5 x84 xf2 xaf x07 xce)) O
(C x34 (Some (W xc1 x67 xb5 x84 xf2 xae x07 xce)) O
(C x35 (Some (W x0e x66 xb5 x84 xf2 xad x07 xce)) O
(C x36 (Some (W x5b x64 xb5 x84 xf2 xac x07 xce)) O
(C x37 (Some (W xa8 x62 xb5 x84 xf2 xab x07 xce)) O
(C x38 (Some (W xf5 x60 xb5 x84 xf2 xaa x07 xce)) O
(C x39 (Some (W x42 x5f xb5 x84 xf2 xa9 x07 xce)) O
O))))))))))
(C x34 None (C x30 (Some (W xf2 x21 xac x84 xf2 x20 xfd xcd)) O
(C x31 (Some (W xa5 x23 xac x84 xf2 x21 xfd xcd)) O
(C x32 (Some (W x8c x1e xac x84 xf2 x1e xfd xcd)) O
(C x33 (Some (W x3f x20 xac x84 xf2 x1f xfd xcd)) O
(C x34 (Some (W x26 x1b xac x84 xf2 x1c xfd xcd)) O
(C x35 (Some (W xd9 x1c xac x84 xf2 x1d xfd xcd)) O
(C x36 (Some (W xc0 x17 xac x84 xf2 x1a xfd xcd)) O
(C x37 (Some (W x73 x19 xac x84 xf2 x1b xfd xcd)) O
(C x38 (Some (W x8a x2f xac x84 xf2 x28 xfd xcd)) O
(C x39 (Some (W x3d x31 xac x84 xf2 x29 xfd xcd)) O
O))))))))))
(C x35 None (C x30 (Some (W x7b x3b xaf x84 xf2 xa6 x00 xce)) O
(C x31 (Some (W xc8 x39 xaf x84 xf2 xa5 x00 xce)) O
(C x32 (Some (W xe1 x3e xaf x84 xf2 xa8 x00 xce)) O
(C x33 (Some (W x2e x3d xaf x84 xf2 xa7 x00 xce)) O
(C x34 (Some (W x47 x42 xaf x84 xf2 xaa x00 xce)) O
(C x35 (Some (W x94 x40 xaf x84 xf2 xa9 x00 xce)) O
(C x36 (Some (W xad x45 xaf x84 xf2 xac x00 xce)) O
(C x37 (Some (W xfa x43 xaf x84 xf2 xab x00 xce)) O
(C x38 (Some (W xe3 x2d xaf x84 xf2 x9e x00 xce)) O
(C x39 (Some (W x30 x2c xaf x84 xf2 x9d x00 xce)) O
O))))))))))
(C x36 None (C x30 (Some (W x60 xc8 xa6 x84 xf2 x94 xf6 xcd)) O
(C x31 (Some (W x13 xca xa6 x84 xf2 x95 xf6 xcd)) O
(C x32 (Some (W xc6 xcb xa6 x84 xf2 x96 xf6 xcd)) O
(C x33 (Some (W x79 xcd xa6 x84 xf2 x97 xf6 xcd)) O
(C x34 (Some (W x2c xcf xa6 x84 xf2 x98 xf6 xcd)) O
(C x35 (Some (W xdf xd0 xa6 x84 xf2 x99 xf6 xcd)) O
(C x36 (Some (W x92 xd2 xa6 x84 xf2 x9a xf6 xcd)) O
(C x37 (Some (W x45 xd4 xa6 x84 xf2 x9b xf6 xcd)) O
(C x38 (Some (W xf8 xd5 xa6 x84 xf2 x9c xf6 xcd)) O
(C x39 (Some (W xab xd7 xa6 x84 xf2 x9d xf6 xcd)) O
O))))))))))
(C x37 None (C x30 (Some (W xe9 xe1 xa9 x84 xf2 x1a xfa xcd)) O
(C x31 (Some (W x36 xe0 xa9 x84 xf2 x19 xfa xcd)) O
(C x32 (Some (W x83 xde xa9 x84 xf2 x18 xfa xcd)) O
(C x33 (Some (W xd0 xdc xa9 x84 xf2 x17 xfa xcd)) O
(C x34 (Some (W xb5 xe8 xa9 x84 xf2 x1e xfa xcd)) O
(C x35 (Some (W x02 xe7 xa9 x84 xf2 x1d xfa xcd)) O
(C x36 (Some (W x4f xe5 xa9 x84 xf2 x1c xfa xcd)) O
(C x37 (Some (W x9c xe3 xa9 x84 xf2 x1b xfa xcd)) O
(C x38 (Some (W x81 xef xa9 x84 xf2 x22 xfa xcd)) O
(C x39 (Some (W xce xed xa9 x84 xf2 x21 xfa xcd)) O
O))))))))))
(C x38 None (C x30 (Some (W x9e x34 xcf x84 xf2 x28 x26 xce)) O
(C x31 (Some (W x51 x36 xcf x84 xf2 x29 x26 xce)) O
(C x32 (Some (W x38 x31 xcf x84 xf2 x26 x26 xce)) O
(C x33 (Some (W xeb x32 xcf x84 xf2 x27 x26 xce)) O
(C x34 (Some (W x6a x3b xcf x84 xf2 x2c x26 xce)) O
(C x35 (Some (W x1d x3d xcf x84 xf2 x2d x26 xce)) O
(C x36 (Some (W x04 x38 xcf x84 xf2 x2a x26 xce)) O
(C x37 (Some (W xb7 x39 xcf x84 xf2 x2b x26 xce)) O
(C x38 (Some (W x06 x27 xcf x84 xf2 x20 x26 xce)) O
(C x39 (Some (W xb9 x28 xcf x84 xf2 x21 x26 xce)) O
O))))))))))
(C x39 None (C x30 (Some (W x27 x4e xd2 x84 xf2 xae x29 xce)) O
(C x31 (Some (W x74 x4c xd2 x84 xf2 xad x29 xce)) O
(C x32 (Some (W x8d x51 xd2 x84 xf2 xb0 x29 xce)) O
(C x33 (Some (W xda x4f xd2 x84 xf2 xaf x29 xce)) O
(C x34 (Some (W x5b x47 xd2 x84 xf2 xaa x29 xce)) O
(C x35 (Some (W xa8 x45 xd2 x84 xf2 xa9 x29 xce)) O
(C x36 (Some (W xc1 x4a xd2 x84 xf2 xac x29 xce)) O
(C x37 (Some (W x0e x49 xd2 x84 xf2 xab x29 xce)) O
(C x38 (Some (W x8f x40 xd2 x84 xf2 xa6 x29 xce)) O
(C x39 (Some (W xdc x3e xd2 x84 xf2 xa5 x29 xce)) O
O))))))))))
O))))))))))
O)
O)
(C x72 None (C x61 None (C x5f None (C x30 None (C x30 (Some (W xf0 x57 x7b x97 x21 x7d xd5 x0e)) O
(C x31 (Some (W xa3 x59 x7b x97 x21 x7e xd5 x0e)) O
(C x32 (Some (W x56 x5b x7b x97 x21 x7f xd5 x0e)) O
(C x33 (Some (W x09 x5d x7b x97 x21 x80 xd5 x0e)) O
(C x34 (Some (W xbc x5e x7b x97 x21 x81 xd5 x0e)) O
(C x35 (Some (W x6f x60 x7b x97 x21 x82 xd5 x0e)) O
(C x36 (Some (W x22 x62 x7b x97 x21 x83 xd5 x0e)) O
(C x37 (Some (W xd5 x63 x7b x97 x21 x84 xd5 x0e)) O
(C x38 (Some (W x88 x65 x7b x97 x21 x85 xd5 x0e)) O
(C x39 (Some (W x3b x67 x7b x97 x21 x86 xd5 x0e)) O
O))))))))))
(C x31 None (C x30 (Some (W x79 x71 x7e x97 x21 x03 xd9 x0e)) (C x30 (Some (W x0b x7f xda x6b x14 x9b x31 xb9)) O
(C x31 (Some (W x58 x7d xda x6b x14 x9a x31 xb9)) O
(C x32 (Some (W x71 x82 xda x6b x14 x9d x31 xb9)) O
(C x33 (Some (W xbe x80 xda x6b x14 x9c x31 xb9)) O
(C x34 (Some (W xd7 x85 xda x6b x14 x9f x31 xb9)) O
(C x35 (Some (W x24 x84 xda x6b x14 x9e x31 xb9)) O
(C x36 (Some (W x3d x89 xda x6b x14 xa1 x31 xb9)) O
(C x37 (Some (W x8a x87 xda x6b x14 xa0 x31 xb9)) O
(C x38 (Some (W x73 x71 xda x6b x14 x93 x31 xb9)) O
(C x39 (Some (W xc0 x6f xda x6b x14 x92 x31 xb9)) O
O))))))))))
(C x31 (Some (W xc6 x6f x7e x97 x21 x02 xd9 x0e)) (C x30 (Some (W x02 x3f xd8 x6b x14 x95 x2e xb9)) O
(C x31 (Some (W xb5 x40 xd8 x6b x14 x96 x2e xb9)) O
(C x32 (Some (W x9c x3b xd8 x6b x14 x93 x2e xb9)) O
(C x33 (Some (W x4f x3d xd8 x6b x14 x94 x2e xb9)) O
(C x34 (Some (W x36 x38 xd8 x6b x14 x91 x2e xb9)) O
(C x35 (Some (W xe9 x39 xd8 x6b x14 x92 x2e xb9)) O
(C x36 (Some (W xd0 x34 xd8 x6b x14 x8f x2e xb9)) O
(C x37 (Some (W x83 x36 xd8 x6b x14 x90 x2e xb9)) O
(C x38 (Some (W x9a x4c xd8 x6b x14 x9d x2e xb9)) O
(C x39 (Some (W x4d x4e xd8 x6b x14 x9e x2e xb9)) O
O))))))))))
(C x32 (Some (W x13 x6e x7e x97 x21 x01 xd9 x0e)) (C x30 (Some (W x79 x25 xd5 x6b x14 x0f x2b xb9)) O
(C x31 (Some (W xc6 x23 xd5 x6b x14 x0e x2b xb9)) O
(C x32 (Some (W x13 x22 xd5 x6b x14 x0d x2b xb9)) O
(C x33 (Some (W x60 x20 xd5 x6b x14 x0c x2b xb9)) O
(C x34 (Some (W x45 x2c xd5 x6b x14 x13 x2b xb9)) O
(C x35 (Some (W x92 x2a xd5 x6b x14 x12 x2b xb9)) O
(C x36 (Some (W xdf x28 xd5 x6b x14 x11 x2b xb9)) O
(C x37 (Some (W x2c x27 xd5 x6b x14 x10 x2b xb9)) O
(C x38 (Some (W x11 x33 xd5 x6b x14 x17 x2b xb9)) O
(C x39 (Some (W x5e x31 xd5 x6b x14 x16 x2b xb9)) O
O))))))))))
(C x33 (Some (W x60 x6c x7e x97 x21 x00 xd9 x0e)) (C x30 (Some (W xf0 x0b xd2 x6b x14 x89 x27 xb9)) O
(C x31 (Some (W xa3 x0d xd2 x6b x14 x8a x27 xb9)) O
(C x32 (Some (W x56 x0f xd2 x6b x14 x8b x27 xb9)) O
(C x33 (Some (W x09 x11 xd2 x6b x14 x8c x27 xb9)) O
(C x34 (Some (W xbc x12 xd2 x6b x14 x8d x27 xb9)) O
(C x35 (Some (W x6f x14 xd2 x6b x14 x8e x27 xb9)) O
(C x36 (Some (W x22 x16 xd2 x6b x14 x8f x27 xb9)) O
(C x37 (Some (W xd5 x17 xd2 x6b x14 x90 x27 xb9)) O
(C x38 (Some (W x88 x19 xd2 x6b x14 x91 x27 xb9)) O
(C x39 (Some (W x3b x1b xd2 x6b x14 x92 x27 xb9)) O
O))))))))))
(C x34 (Some (W x45 x78 x7e x97 x21 x07 xd9 x0e)) (C x30 (Some (W xcf xae xe6 x6b x14 x93 x3f xb9)) O
(C x31 (Some (W x1c xad xe6 x6b x14 x92 x3f xb9)) O
(C x32 (Some (W x35 xb2 xe6 x6b x14 x95 x3f xb9)) O
(C x33 (Some (W x82 xb0 xe6 x6b x14 x94 x3f xb9)) O
(C x34 (Some (W x03 xa8 xe6 x6b x14 x8f x3f xb9)) O
(C x35 (Some (W x50 xa6 xe6 x6b x14 x8e x3f xb9)) O
(C x36 (Some (W x69 xab xe6 x6b x14 x91 x3f xb9)) O
(C x37 (Some (W xb6 xa9 xe6 x6b x14 x90 x3f xb9)) O
(C x38 (Some (W x67 xbc xe6 x6b x14 x9b x3f xb9)) O
(C x39 (Some (W xb4 xba xe6 x6b x14 x9a x3f xb9)) O
O))))))))))
(C x35 (Some (W x92 x76 x7e x97 x21 x06 xd9 x0e)) O
(C x36 (Some (W xdf x74 x7e x97 x21 x05 xd9 x0e)) O
(C x37 (Some (W x2c x73 x7e x97 x21 x04 xd9 x0e)) O
(C x38 (Some (W x11 x7f x7e x97 x21 x0b xd9 x0e)) O
(C x39 (Some (W x5e x7d x7e x97 x21 x0a xd9 x0e)) O
O))))))))))
(C x32 None (C x30 (Some (W x02 x8b x81 x97 x21 x89 xdc x0e)) O
(C x31 (Some (W xb5 x8c x81 x97 x21 x8a xdc x0e)) O
(C x32 (Some (W x9c x87 x81 x97 x21 x87 xdc x0e)) O
(C x33 (Some (W x4f x89 x81 x97 x21 x88 xdc x0e)) O
(C x34 (Some (W x36 x84 x81 x97 x21 x85 xdc x0e)) O
(C x35 (Some (W xe9 x85 x81 x97 x21 x86 xdc x0e)) O
(C x36 (Some (W xd0 x80 x81 x97 x21 x83 xdc x0e)) O
(C x37 (Some (W x83 x82 x81 x97 x21 x84 xdc x0e)) O
(C x38 (Some (W x9a x98 x81 x97 x21 x91 xdc x0e)) O
(C x39 (Some (W x4d x9a x81 x97 x21 x92 xdc x0e)) O
O))))))))))
(C x33 None (C x30 (Some (W x0b xcb x83 x97 x21 x8f xdf x0e)) O
(C x31 (Some (W x58 xc9 x83 x97 x21 x8e xdf x0e)) O
(C x32 (Some (W x71 xce x83 x97 x21 x91 xdf x0e)) O
(C x33 (Some (W xbe xcc x83 x97 x21 x90 xdf x0e)) O
(C x34 (Some (W xd7 xd1 x83 x97 x21 x93 xdf x0e)) O
(C x35 (Some (W x24 xd0 x83 x97 x21 x92 xdf x0e)) O
(C x36 (Some (W x3d xd5 x83 x97 x21 x95 xdf x0e)) O
(C x37 (Some (W x8a xd3 x83 x97 x21 x94 xdf x0e)) O
(C x38 (Some (W x73 xbd x83 x97 x21 x87 xdf x0e)) O
(C x39 (Some (W xc0 xbb x83 x97 x21 x86 xdf x0e)) O
O))))))))))
(C x34 None (C x30 (Some (W x94 xe4 x86 x97 x21 x15 xe3 x0e)) O
(C x31 (Some (W x47 xe6 x86 x97 x21 x16 xe3 x0e)) O
(C x32 (Some (W xfa xe7 x86 x97 x21 x17 xe3 x0e)) O
(C x33 (Some (W xad xe9 x86 x97 x21 x18 xe3 x0e)) O
(C x34 (Some (W xc8 xdd x86 x97 x21 x11 xe3 x0e)) O
(C x35 (Some (W x7b xdf x86 x97 x21 x12 xe3 x0e)) O
(C x36 (Some (W x2e xe1 x86 x97 x21 x13 xe3 x0e)) O
(C x37 (Some (W xe1 xe2 x86 x97 x21 x14 xe3 x0e)) O
(C x38 (Some (W xfc xd6 x86 x97 x21 x0d xe3 x0e)) O
(C x39 (Some (W xaf xd8 x86 x97 x21 x0e xe3 x0e)) O
O))))))))))
(C x35 None (C x30 (Some (W x1d xfe x89 x97 x21 x9b xe6 x0e)) O
(C x31 (Some (W x6a xfc x89 x97 x21 x9a xe6 x0e)) O
(C x32 (Some (W xb7 xfa x89 x97 x21 x99 xe6 x0e)) O
(C x33 (Some (W x04 xf9 x89 x97 x21 x98 xe6 x0e)) O
(C x34 (Some (W x51 xf7 x89 x97 x21 x97 xe6 x0e)) O
(C x35 (Some (W x9e xf5 x89 x97 x21 x96 xe6 x0e)) O
(C x36 (Some (W xeb xf3 x89 x97 x21 x95 xe6 x0e)) O
(C x37 (Some (W x38 xf2 x89 x97 x21 x94 xe6 x0e)) O
(C x38 (Some (W x85 xf0 x89 x97 x21 x93 xe6 x0e)) O
(C x39 (Some (W xd2 xee x89 x97 x21 x92 xe6 x0e)) O
O))))))))))
(C x36 None (C x30 (Some (W x46 xe1 x8c x97 x21 x01 xea x0e)) O
(C x31 (Some (W xf9 xe2 x8c x97 x21 x02 xea x0e)) O
(C x32 (Some (W xe0 xdd x8c x97 x21 xff xe9 x0e)) O
(C x33 (Some (W x93 xdf x8c x97 x21 x00 xea x0e)) O
(C x34 (Some (W x12 xe8 x8c x97 x21 x05 xea x0e)) O
(C x35 (Some (W xc5 xe9 x8c x97 x21 x06 xea x0e)) O
(C x36 (Some (W xac xe4 x8c x97 x21 x03 xea x0e)) O
(C x37 (Some (W x5f xe6 x8c x97 x21 x04 xea x0e)) O
(C x38 (Some (W xde xee x8c x97 x21 x09 xea x0e)) O
(C x39 (Some (W x91 xf0 x8c x97 x21 x0a xea x0e)) O
O))))))))))
(C x37 None (C x30 (Some (W xcf xfa x8f x97 x21 x87 xed x0e)) O
(C x31 (Some (W x1c xf9 x8f x97 x21 x86 xed x0e)) O
(C x32 (Some (W x35 xfe x8f x97 x21 x89 xed x0e)) O
(C x33 (Some (W x82 xfc x8f x97 x21 x88 xed x0e)) O
(C x34 (Some (W x03 xf4 x8f x97 x21 x83 xed x0e)) O
(C x35 (Some (W x50 xf2 x8f x97 x21 x82 xed x0e)) O
(C x36 (Some (W x69 xf7 x8f x97 x21 x85 xed x0e)) O
(C x37 (Some (W xb6 xf5 x8f x97 x21 x84 xed x0e)) O
(C x38 (Some (W x67 x08 x90 x97 x21 x8f xed x0e)) O
(C x39 (Some (W xb4 x06 x90 x97 x21 x8e xed x0e)) O
O))))))))))
(C x38 None (C x30 (Some (W xd8 x3a x92 x97 x21 x8d xf0 x0e)) O
(C x31 (Some (W x8b x3c x92 x97 x21 x8e xf0 x0e)) O
(C x32 (Some (W x3e x3e x92 x97 x21 x8f xf0 x0e)) O
(C x33 (Some (W xf1 x3f x92 x97 x21 x90 xf0 x0e)) O
(C x34 (Some (W xa4 x41 x92 x97 x21 x91 xf0 x0e)) O
(C x35 (Some (W x57 x43 x92 x97 x21 x92 xf0 x0e)) O
(C x36 (Some (W x0a x45 x92 x97 x21 x93 xf0 x0e)) O
(C x37 (Some (W xbd x46 x92 x97 x21 x94 xf0 x0e)) O
(C x38 (Some (W x40 x2d x92 x97 x21 x85 xf0 x0e)) O
(C x39 (Some (W xf3 x2e x92 x97 x21 x86 xf0 x0e)) O
O))))))))))
(C x39 None (C x30 (Some (W x61 x54 x95 x97 x21 x13 xf4 x0e)) O
(C x31 (Some (W xae x52 x95 x97 x21 x12 xf4 x0e)) O
(C x32 (Some (W xfb x50 x95 x97 x21 x11 xf4 x0e)) O
(C x33 (Some (W x48 x4f x95 x97 x21 x10 xf4 x0e)) O
(C x34 (Some (W x2d x5b x95 x97 x21 x17 xf4 x0e)) O
(C x35 (Some (W x7a x59 x95 x97 x21 x16 xf4 x0e)) O
(C x36 (Some (W xc7 x57 x95 x97 x21 x15 xf4 x0e)) O
(C x37 (Some (W x14 x56 x95 x97 x21 x14 xf4 x0e)) O
(C x38 (Some (W xc9 x46 x95 x97 x21 x0b xf4 x0e)) O
(C x39 (Some (W x16 x45 x95 x97 x21 x0a xf4 x0e)) O
O))))))))))
O))))))))))
O)
O)
O)))
O)
O)
O)
(C x66 None (C x6c None (C x79 None (C x5f None (C x65 None (C x78 None (C x5f None (C x30 None (C x30 (Some (W x77 xd4 xae x42 xc4 x37 xb1 x7d)) O
(C x31 (Some (W xc4 xd2 xae x42 xc4 x36 xb1 x7d)) O
(C x32 (Some (W xdd xd7 xae x42 xc4 x39 xb1 x7d)) O
(C x33 (Some (W x2a xd6 xae x42 xc4 x38 xb1 x7d)) O
(C x34 (Some (W xab xcd xae x42 xc4 x33 xb1 x7d)) O
(C x35 (Some (W xf8 xcb xae x42 xc4 x32 xb1 x7d)) O
(C x36 (Some (W x11 xd1 xae x42 xc4 x35 xb1 x7d)) O
(C x37 (Some (W x5e xcf xae x42 xc4 x34 xb1 x7d)) O
(C x38 (Some (W xdf xc6 xae x42 xc4 x2f xb1 x7d)) O
(C x39 (Some (W x2c xc5 xae x42 xc4 x2e xb1 x7d)) O
O))))))))))
(C x31 None (C x30 (Some (W xee xba xab x42 xc4 xb1 xad x7d)) (C x30 (Some (W x3a x87 xce x49 x7d xee xdf x39)) O
(C x31 (Some (W xed x88 xce x49 x7d xef xdf x39)) O
(C x32 (Some (W xd4 x83 xce x49 x7d xec xdf x39)) O
(C x33 (Some (W x87 x85 xce x49 x7d xed xdf x39)) O
(C x34 (Some (W x6e x80 xce x49 x7d xea xdf x39)) O
(C x35 (Some (W x21 x82 xce x49 x7d xeb xdf x39)) O
(C x36 (Some (W x08 x7d xce x49 x7d xe8 xdf x39)) O
(C x37 (Some (W xbb x7e xce x49 x7d xe9 xdf x39)) O
(C x38 (Some (W xa2 x79 xce x49 x7d xe6 xdf x39)) O
(C x39 (Some (W x55 x7b xce x49 x7d xe7 xdf x39)) O
O))))))))))
(C x31 (Some (W xa1 xbc xab x42 xc4 xb2 xad x7d)) (C x30 (Some (W x63 x6a xd1 x49 x7d x54 xe3 x39)) O
(C x31 (Some (W xb0 x68 xd1 x49 x7d x53 xe3 x39)) O
(C x32 (Some (W xc9 x6d xd1 x49 x7d x56 xe3 x39)) O
(C x33 (Some (W x16 x6c xd1 x49 x7d x55 xe3 x39)) O
(C x34 (Some (W x2f x71 xd1 x49 x7d x58 xe3 x39)) O
(C x35 (Some (W x7c x6f xd1 x49 x7d x57 xe3 x39)) O
(C x36 (Some (W x95 x74 xd1 x49 x7d x5a xe3 x39)) O
(C x37 (Some (W xe2 x72 xd1 x49 x7d x59 xe3 x39)) O
(C x38 (Some (W xfb x77 xd1 x49 x7d x5c xe3 x39)) O
(C x39 (Some (W x48 x76 xd1 x49 x7d x5b xe3 x39)) O
O))))))))))
(C x32 (Some (W x88 xb7 xab x42 xc4 xaf xad x7d)) (C x30 (Some (W xa8 x2d xc9 x49 x7d x62 xd9 x39)) O
(C x31 (Some (W x5b x2f xc9 x49 x7d x63 xd9 x39)) O
(C x32 (Some (W x0e x31 xc9 x49 x7d x64 xd9 x39)) O
(C x33 (Some (W xc1 x32 xc9 x49 x7d x65 xd9 x39)) O
(C x34 (Some (W x74 x34 xc9 x49 x7d x66 xd9 x39)) O
(C x35 (Some (W x27 x36 xc9 x49 x7d x67 xd9 x39)) O
(C x36 (Some (W xda x37 xc9 x49 x7d x68 xd9 x39)) O
(C x37 (Some (W x8d x39 xc9 x49 x7d x69 xd9 x39)) O
(C x38 (Some (W x10 x20 xc9 x49 x7d x5a xd9 x39)) O
(C x39 (Some (W xc3 x21 xc9 x49 x7d x5b xd9 x39)) O
O))))))))))
(C x33 (Some (W x3b xb9 xab x42 xc4 xb0 xad x7d)) (C x30 (Some (W xb1 x6d xcb x49 x7d x68 xdc x39)) O
(C x31 (Some (W xfe x6b xcb x49 x7d x67 xdc x39)) O
(C x32 (Some (W x4b x6a xcb x49 x7d x66 xdc x39)) O
(C x33 (Some (W x98 x68 xcb x49 x7d x65 xdc x39)) O
(C x34 (Some (W x7d x74 xcb x49 x7d x6c xdc x39)) O
(C x35 (Some (W xca x72 xcb x49 x7d x6b xdc x39)) O
(C x36 (Some (W x17 x71 xcb x49 x7d x6a xdc x39)) O
(C x37 (Some (W x64 x6f xcb x49 x7d x69 xdc x39)) O
(C x38 (Some (W x19 x60 xcb x49 x7d x60 xdc x39)) O
(C x39 (Some (W x66 x5e xcb x49 x7d x5f xdc x39)) O
O))))))))))
(C x34 (Some (W xba xc1 xab x42 xc4 xb5 xad x7d)) (C x30 (Some (W x7e xdd xd9 x49 x7d x66 xed x39)) O
(C x31 (Some (W x31 xdf xd9 x49 x7d x67 xed x39)) O
(C x32 (Some (W x18 xda xd9 x49 x7d x64 xed x39)) O
(C x33 (Some (W xcb xdb xd9 x49 x7d x65 xed x39)) O
(C x34 (Some (W x4a xe4 xd9 x49 x7d x6a xed x39)) O
(C x35 (Some (W xfd xe5 xd9 x49 x7d x6b xed x39)) O
(C x36 (Some (W xe4 xe0 xd9 x49 x7d x68 xed x39)) O
(C x37 (Some (W x97 xe2 xd9 x49 x7d x69 xed x39)) O
(C x38 (Some (W xe6 xcf xd9 x49 x7d x5e xed x39)) O
(C x39 (Some (W x99 xd1 xd9 x49 x7d x5f xed x39)) O
O))))))))))
(C x35 (Some (W x6d xc3 xab x42 xc4 xb6 xad x7d)) O
(C x36 (Some (W x54 xbe xab x42 xc4 xb3 xad x7d)) O
(C x37 (Some (W x07 xc0 xab x42 xc4 xb4 xad x7d)) O
(C x38 (Some (W x56 xad xab x42 xc4 xa9 xad x7d)) O
(C x39 (Some (W x09 xaf xab x42 xc4 xaa xad x7d)) O
O))))))))))
(C x32 None (C x30 (Some (W x65 xa1 xa8 x42 xc4 x2b xaa x7d)) O
(C x31 (Some (W xb2 x9f xa8 x42 xc4 x2a xaa x7d)) O
(C x32 (Some (W xff x9d xa8 x42 xc4 x29 xaa x7d)) O
(C x33 (Some (W x4c x9c xa8 x42 xc4 x28 xaa x7d)) O
(C x34 (Some (W x99 x9a xa8 x42 xc4 x27 xaa x7d)) O
(C x35 (Some (W xe6 x98 xa8 x42 xc4 x26 xaa x7d)) O
(C x36 (Some (W x33 x97 xa8 x42 xc4 x25 xaa x7d)) O
(C x37 (Some (W x80 x95 xa8 x42 xc4 x24 xaa x7d)) O
(C x38 (Some (W xfd xae xa8 x42 xc4 x33 xaa x7d)) O
(C x39 (Some (W x4a xad xa8 x42 xc4 x32 xaa x7d)) O
O))))))))))
(C x33 None (C x30 (Some (W x5c x61 xa6 x42 xc4 x25 xa7 x7d)) O
(C x31 (Some (W x0f x63 xa6 x42 xc4 x26 xa7 x7d)) O
(C x32 (Some (W xc2 x64 xa6 x42 xc4 x27 xa7 x7d)) O
(C x33 (Some (W x75 x66 xa6 x42 xc4 x28 xa7 x7d)) O
(C x34 (Some (W x90 x5a xa6 x42 xc4 x21 xa7 x7d)) O
(C x35 (Some (W x43 x5c xa6 x42 xc4 x22 xa7 x7d)) O
(C x36 (Some (W xf6 x5d xa6 x42 xc4 x23 xa7 x7d)) O
(C x37 (Some (W xa9 x5f xa6 x42 xc4 x24 xa7 x7d)) O
(C x38 (Some (W xf4 x6e xa6 x42 xc4 x2d xa7 x7d)) O
(C x39 (Some (W xa7 x70 xa6 x42 xc4 x2e xa7 x7d)) O
O))))))))))
(C x34 None (C x30 (Some (W xd3 x47 xa3 x42 xc4 x9f xa3 x7d)) O
(C x31 (Some (W x20 x46 xa3 x42 xc4 x9e xa3 x7d)) O
(C x32 (Some (W x39 x4b xa3 x42 xc4 xa1 xa3 x7d)) O
(C x33 (Some (W x86 x49 xa3 x42 xc4 xa0 xa3 x7d)) O
(C x34 (Some (W x9f x4e xa3 x42 xc4 xa3 xa3 x7d)) O
(C x35 (Some (W xec x4c xa3 x42 xc4 xa2 xa3 x7d)) O
(C x36 (Some (W x05 x52 xa3 x42 xc4 xa5 xa3 x7d)) O
(C x37 (Some (W x52 x50 xa3 x42 xc4 xa4 xa3 x7d)) O
(C x38 (Some (W x6b x55 xa3 x42 xc4 xa7 xa3 x7d)) O
(C x39 (Some (W xb8 x53 xa3 x42 xc4 xa6 xa3 x7d)) O
O))))))))))
(C x35 None (C x30 (Some (W xaa x64 xa0 x42 xc4 x39 xa0 x7d)) O
(C x31 (Some (W x5d x66 xa0 x42 xc4 x3a xa0 x7d)) O
(C x32 (Some (W x44 x61 xa0 x42 xc4 x37 xa0 x7d)) O
(C x33 (Some (W xf7 x62 xa0 x42 xc4 x38 xa0 x7d)) O
(C x34 (Some (W xde x5d xa0 x42 xc4 x35 xa0 x7d)) O
(C x35 (Some (W x91 x5f xa0 x42 xc4 x36 xa0 x7d)) O
(C x36 (Some (W x78 x5a xa0 x42 xc4 x33 xa0 x7d)) O
(C x37 (Some (W x2b x5c xa0 x42 xc4 x34 xa0 x7d)) O
(C x38 (Some (W x12 x57 xa0 x42 xc4 x31 xa0 x7d)) O
(C x39 (Some (W xc5 x58 xa0 x42 xc4 x32 xa0 x7d)) O
O))))))))))
(C x36 None (C x30 (Some (W x21 x4b x9d x42 xc4 xb3 x9c x7d)) O
(C x31 (Some (W x6e x49 x9d x42 xc4 xb2 x9c x7d)) O
(C x32 (Some (W xbb x47 x9d x42 xc4 xb1 x9c x7d)) O
(C x33 (Some (W x08 x46 x9d x42 xc4 xb0 x9c x7d)) O
(C x34 (Some (W xed x51 x9d x42 xc4 xb7 x9c x7d)) O
(C x35 (Some (W x3a x50 x9d x42 xc4 xb6 x9c x7d)) O
(C x36 (Some (W x87 x4e x9d x42 xc4 xb5 x9c x7d)) O
(C x37 (Some (W xd4 x4c x9d x42 xc4 xb4 x9c x7d)) O
(C x38 (Some (W x89 x3d x9d x42 xc4 xab x9c x7d)) O
(C x39 (Some (W xd6 x3b x9d x42 xc4 xaa x9c x7d)) O
O))))))))))
(C x37 None (C x30 (Some (W x98 x31 x9a x42 xc4 x2d x99 x7d)) O
(C x31 (Some (W x4b x33 x9a x42 xc4 x2e x99 x7d)) O
(C x32 (Some (W xfe x34 x9a x42 xc4 x2f x99 x7d)) O
(C x33 (Some (W xb1 x36 x9a x42 xc4 x30 x99 x7d)) O
(C x34 (Some (W x64 x38 x9a x42 xc4 x31 x99 x7d)) O
(C x35 (Some (W x17 x3a x9a x42 xc4 x32 x99 x7d)) O
(C x36 (Some (W xca x3b x9a x42 xc4 x33 x99 x7d)) O
(C x37 (Some (W x7d x3d x9a x42 xc4 x34 x99 x7d)) O
(C x38 (Some (W x00 x24 x9a x42 xc4 x25 x99 x7d)) O
(C x39 (Some (W xb3 x25 x9a x42 xc4 x26 x99 x7d)) O
O))))))))))
(C x38 None (C x30 (Some (W x8f xf1 x97 x42 xc4 x27 x96 x7d)) O
(C x31 (Some (W xdc xef x97 x42 xc4 x26 x96 x7d)) O
(C x32 (Some (W xf5 xf4 x97 x42 xc4 x29 x96 x7d)) O
(C x33 (Some (W x42 xf3 x97 x42 xc4 x28 x96 x7d)) O
(C x34 (Some (W xc3 xea x97 x42 xc4 x23 x96 x7d)) O
(C x35 (Some (W x10 xe9 x97 x42 xc4 x22 x96 x7d)) O
(C x36 (Some (W x29 xee x97 x42 xc4 x25 x96 x7d)) O
(C x37 (Some (W x76 xec x97 x42 xc4 x24 x96 x7d)) O
(C x38 (Some (W x27 xff x97 x42 xc4 x2f x96 x7d)) O
(C x39 (Some (W x74 xfd x97 x42 xc4 x2e x96 x7d)) O
O))))))))))
(C x39 None (C x30 (Some (W x06 xd8 x94 x42 xc4 xa1 x92 x7d)) O
(C x31 (Some (W xb9 xd9 x94 x42 xc4 xa2 x92 x7d)) O
(C x32 (Some (W xa0 xd4 x94 x42 xc4 x9f x92 x7d)) O
(C x33 (Some (W x53 xd6 x94 x42 xc4 xa0 x92 x7d)) O
(C x34 (Some (W xd2 xde x94 x42 xc4 xa5 x92 x7d)) O
(C x35 (Some (W x85 xe0 x94 x42 xc4 xa6 x92 x7d)) O
(C x36 (Some (W x6c xdb x94 x42 xc4 xa3 x92 x7d)) O
(C x37 (Some (W x1f xdd x94 x42 xc4 xa4 x92 x7d)) O
(C x38 (Some (W x9e xe5 x94 x42 xc4 xa9 x92 x7d)) O
(C x39 (Some (W x51 xe7 x94 x42 xc4 xaa x92 x7d)) O
O))))))))))
O))))))))))
O)
O)
(C x6e None (C x6f None (C x5f None (C x30 None (C x30 (Some (W x31 x6a xca xc9 x03 x8f xa3 xbc)) O
(C x31 (Some (W x7e x68 xca xc9 x03 x8e xa3 xbc)) O
(C x32 (Some (W xcb x66 xca xc9 x03 x8d xa3 xbc)) O
(C x33 (Some (W x18 x65 xca xc9 x03 x8c xa3 xbc)) O
(C x34 (Some (W xfd x70 xca xc9 x03 x93 xa3 xbc)) O
(C x35 (Some (W x4a x6f xca xc9 x03 x92 xa3 xbc)) O
(C x36 (Some (W x97 x6d xca xc9 x03 x91 xa3 xbc)) O
(C x37 (Some (W xe4 x6b xca xc9 x03 x90 xa3 xbc)) O
(C x38 (Some (W x99 x5c xca xc9 x03 x87 xa3 xbc)) O
(C x39 (Some (W xe6 x5a xca xc9 x03 x86 xa3 xbc)) O
O))))))))))
(C x31 None (C x30 (Some (W x28 x2a xc8 xc9 x03 x89 xa0 xbc)) (C x30 (Some (W xc8 x86 x1f xdf x6f xe9 xf2 x4c)) O
(C x31 (Some (W x7b x88 x1f xdf x6f xea xf2 x4c)) O
(C x32 (Some (W x2e x8a x1f xdf x6f xeb xf2 x4c)) O
(C x33 (Some (W xe1 x8b x1f xdf x6f xec xf2 x4c)) O
(C x34 (Some (W x94 x8d x1f xdf x6f xed xf2 x4c)) O
(C x35 (Some (W x47 x8f x1f xdf x6f xee xf2 x4c)) O
(C x36 (Some (W xfa x90 x1f xdf x6f xef xf2 x4c)) O
(C x37 (Some (W xad x92 x1f xdf x6f xf0 xf2 x4c)) O
(C x38 (Some (W x30 x79 x1f xdf x6f xe1 xf2 x4c)) O
(C x39 (Some (W xe3 x7a x1f xdf x6f xe2 xf2 x4c)) O
O))))))))))
(C x31 (Some (W xdb x2b xc8 xc9 x03 x8a xa0 xbc)) (C x30 (Some (W x51 xa0 x22 xdf x6f x6f xf6 x4c)) O
(C x31 (Some (W x9e x9e x22 xdf x6f x6e xf6 x4c)) O
(C x32 (Some (W xeb x9c x22 xdf x6f x6d xf6 x4c)) O
(C x33 (Some (W x38 x9b x22 xdf x6f x6c xf6 x4c)) O
(C x34 (Some (W x1d xa7 x22 xdf x6f x73 xf6 x4c)) O
(C x35 (Some (W x6a xa5 x22 xdf x6f x72 xf6 x4c)) O
(C x36 (Some (W xb7 xa3 x22 xdf x6f x71 xf6 x4c)) O
(C x37 (Some (W x04 xa2 x22 xdf x6f x70 xf6 x4c)) O
(C x38 (Some (W xb9 x92 x22 xdf x6f x67 xf6 x4c)) O
(C x39 (Some (W x06 x91 x22 xdf x6f x66 xf6 x4c)) O
O))))))))))
(C x32 (Some (W x8e x2d xc8 xc9 x03 x8b xa0 xbc)) (C x30 (Some (W xda xb9 x25 xdf x6f xf5 xf9 x4c)) O
(C x31 (Some (W x8d xbb x25 xdf x6f xf6 xf9 x4c)) O
(C x32 (Some (W x74 xb6 x25 xdf x6f xf3 xf9 x4c)) O
(C x33 (Some (W x27 xb8 x25 xdf x6f xf4 xf9 x4c)) O
(C x34 (Some (W x0e xb3 x25 xdf x6f xf1 xf9 x4c)) O
(C x35 (Some (W xc1 xb4 x25 xdf x6f xf2 xf9 x4c)) O
(C x36 (Some (W xa8 xaf x25 xdf x6f xef xf9 x4c)) O
(C x37 (Some (W x5b xb1 x25 xdf x6f xf0 xf9 x4c)) O
(C x38 (Some (W x42 xac x25 xdf x6f xed xf9 x4c)) O
(C x39 (Some (W xf5 xad x25 xdf x6f xee xf9 x4c)) O
O))))))))))
(C x33 (Some (W x41 x2f xc8 xc9 x03 x8c xa0 xbc)) (C x30 (Some (W x03 x9d x28 xdf x6f x5b xfd x4c)) O
(C x31 (Some (W x50 x9b x28 xdf x6f x5a xfd x4c)) O
(C x32 (Some (W x69 xa0 x28 xdf x6f x5d xfd x4c)) O
(C x33 (Some (W xb6 x9e x28 xdf x6f x5c xfd x4c)) O
(C x34 (Some (W xcf xa3 x28 xdf x6f x5f xfd x4c)) O
(C x35 (Some (W x1c xa2 x28 xdf x6f x5e xfd x4c)) O
(C x36 (Some (W x35 xa7 x28 xdf x6f x61 xfd x4c)) O
(C x37 (Some (W x82 xa5 x28 xdf x6f x60 xfd x4c)) O
(C x38 (Some (W x9b xaa x28 xdf x6f x63 xfd x4c)) O
(C x39 (Some (W xe8 xa8 x28 xdf x6f x62 xfd x4c)) O
O))))))))))
(C x34 (Some (W xf4 x30 xc8 xc9 x03 x8d xa0 xbc)) (C x30 (Some (W x0c xdd x2a xdf x6f x61 x00 x4d)) O
(C x31 (Some (W xbf xde x2a xdf x6f x62 x00 x4d)) O
(C x32 (Some (W x72 xe0 x2a xdf x6f x63 x00 x4d)) O
(C x33 (Some (W x25 xe2 x2a xdf x6f x64 x00 x4d)) O
(C x34 (Some (W x40 xd6 x2a xdf x6f x5d x00 x4d)) O
(C x35 (Some (W xf3 xd7 x2a xdf x6f x5e x00 x4d)) O
(C x36 (Some (W xa6 xd9 x2a xdf x6f x5f x00 x4d)) O
(C x37 (Some (W x59 xdb x2a xdf x6f x60 x00 x4d)) O
(C x38 (Some (W xa4 xea x2a xdf x6f x69 x00 x4d)) O
(C x39 (Some (W x57 xec x2a xdf x6f x6a x00 x4d)) O
O))))))))))
(C x35 (Some (W xa7 x32 xc8 xc9 x03 x8e xa0 xbc)) O
(C x36 (Some (W x5a x34 xc8 xc9 x03 x8f xa0 xbc)) O
(C x37 (Some (W x0d x36 xc8 xc9 x03 x90 xa0 xbc)) O
(C x38 (Some (W x90 x1c xc8 xc9 x03 x81 xa0 xbc)) O
(C x39 (Some (W x43 x1e xc8 xc9 x03 x82 xa0 xbc)) O
O))))))))))
(C x32 None (C x30 (Some (W xe3 x66 xd0 xc9 x03 x7b xaa xbc)) O
(C x31 (Some (W x30 x65 xd0 xc9 x03 x7a xaa xbc)) O
(C x32 (Some (W x49 x6a xd0 xc9 x03 x7d xaa xbc)) O
(C x33 (Some (W x96 x68 xd0 xc9 x03 x7c xaa xbc)) O
(C x34 (Some (W xaf x6d xd0 xc9 x03 x7f xaa xbc)) O
(C x35 (Some (W xfc x6b xd0 xc9 x03 x7e xaa xbc)) O
(C x36 (Some (W x15 x71 xd0 xc9 x03 x81 xaa xbc)) O
(C x37 (Some (W x62 x6f xd0 xc9 x03 x80 xaa xbc)) O
(C x38 (Some (W x7b x74 xd0 xc9 x03 x83 xaa xbc)) O
(C x39 (Some (W xc8 x72 xd0 xc9 x03 x82 xaa xbc)) O
O))))))))))
(C x33 None (C x30 (Some (W xba x83 xcd xc9 x03 x15 xa7 xbc)) O
(C x31 (Some (W x6d x85 xcd xc9 x03 x16 xa7 xbc)) O
(C x32 (Some (W x54 x80 xcd xc9 x03 x13 xa7 xbc)) O
(C x33 (Some (W x07 x82 xcd xc9 x03 x14 xa7 xbc)) O
(C x34 (Some (W xee x7c xcd xc9 x03 x11 xa7 xbc)) O
(C x35 (Some (W xa1 x7e xcd xc9 x03 x12 xa7 xbc)) O
(C x36 (Some (W x88 x79 xcd xc9 x03 x0f xa7 xbc)) O
(C x37 (Some (W x3b x7b xcd xc9 x03 x10 xa7 xbc)) O
(C x38 (Some (W x22 x76 xcd xc9 x03 x0d xa7 xbc)) O
(C x39 (Some (W xd5 x77 xcd xc9 x03 x0e xa7 xbc)) O
O))))))))))
(C x34 None (C x30 (Some (W xf5 x99 xd6 xc9 x03 x87 xb1 xbc)) O
(C x31 (Some (W x42 x98 xd6 xc9 x03 x86 xb1 xbc)) O
(C x32 (Some (W x8f x96 xd6 xc9 x03 x85 xb1 xbc)) O
(C x33 (Some (W xdc x94 xd6 xc9 x03 x84 xb1 xbc)) O
(C x34 (Some (W x29 x93 xd6 xc9 x03 x83 xb1 xbc)) O
(C x35 (Some (W x76 x91 xd6 xc9 x03 x82 xb1 xbc)) O
(C x36 (Some (W xc3 x8f xd6 xc9 x03 x81 xb1 xbc)) O
(C x37 (Some (W x10 x8e xd6 xc9 x03 x80 xb1 xbc)) O
(C x38 (Some (W x8d xa7 xd6 xc9 x03 x8f xb1 xbc)) O
(C x39 (Some (W xda xa5 xd6 xc9 x03 x8e xb1 xbc)) O
O))))))))))
(C x35 None (C x30 (Some (W x6c x80 xd3 xc9 x03 x01 xae xbc)) O
(C x31 (Some (W x1f x82 xd3 xc9 x03 x02 xae xbc)) O
(C x32 (Some (W xd2 x83 xd3 xc9 x03 x03 xae xbc)) O
(C x33 (Some (W x85 x85 xd3 xc9 x03 x04 xae xbc)) O
(C x34 (Some (W xa0 x79 xd3 xc9 x03 xfd xad xbc)) O
(C x35 (Some (W x53 x7b xd3 xc9 x03 xfe xad xbc)) O
(C x36 (Some (W x06 x7d xd3 xc9 x03 xff xad xbc)) O
(C x37 (Some (W xb9 x7e xd3 xc9 x03 x00 xae xbc)) O
(C x38 (Some (W x04 x8e xd3 xc9 x03 x09 xae xbc)) O
(C x39 (Some (W xb7 x8f xd3 xc9 x03 x0a xae xbc)) O
O))))))))))
(C x36 None (C x30 (Some (W x87 xf3 xdb xc9 x03 x13 xb8 xbc)) O
(C x31 (Some (W xd4 xf1 xdb xc9 x03 x12 xb8 xbc)) O
(C x32 (Some (W xed xf6 xdb xc9 x03 x15 xb8 xbc)) O
(C x33 (Some (W x3a xf5 xdb xc9 x03 x14 xb8 xbc)) O
(C x34 (Some (W xbb xec xdb xc9 x03 x0f xb8 xbc)) O
(C x35 (Some (W x08 xeb xdb xc9 x03 x0e xb8 xbc)) O
(C x36 (Some (W x21 xf0 xdb xc9 x03 x11 xb8 xbc)) O
(C x37 (Some (W x6e xee xdb xc9 x03 x10 xb8 xbc)) O
(C x38 (Some (W xef xe5 xdb xc9 x03 x0b xb8 xbc)) O
(C x39 (Some (W x3c xe4 xdb xc9 x03 x0a xb8 xbc)) O
O))))))))))
(C x37 None (C x30 (Some (W xfe xd9 xd8 xc9 x03 x8d xb4 xbc)) O
(C x31 (Some (W xb1 xdb xd8 xc9 x03 x8e xb4 xbc)) O
(C x32 (Some (W x98 xd6 xd8 xc9 x03 x8b xb4 xbc)) O
(C x33 (Some (W x4b xd8 xd8 xc9 x03 x8c xb4 xbc)) O
(C x34 (Some (W xca xe0 xd8 xc9 x03 x91 xb4 xbc)) O
(C x35 (Some (W x7d xe2 xd8 xc9 x03 x92 xb4 xbc)) O
(C x36 (Some (W x64 xdd xd8 xc9 x03 x8f xb4 xbc)) O
(C x37 (Some (W x17 xdf xd8 xc9 x03 x90 xb4 xbc)) O
(C x38 (Some (W x66 xcc xd8 xc9 x03 x85 xb4 xbc)) O
(C x39 (Some (W x19 xce xd8 xc9 x03 x86 xb4 xbc)) O
O))))))))))
(C x38 None (C x30 (Some (W x49 x87 xb3 xc9 x03 x7f x88 xbc)) O
(C x31 (Some (W x96 x85 xb3 xc9 x03 x7e x88 xbc)) O
(C x32 (Some (W xe3 x83 xb3 xc9 x03 x7d x88 xbc)) O
(C x33 (Some (W x30 x82 xb3 xc9 x03 x7c x88 xbc)) O
(C x34 (Some (W x15 x8e xb3 xc9 x03 x83 x88 xbc)) O
(C x35 (Some (W x62 x8c xb3 xc9 x03 x82 x88 xbc)) O
(C x36 (Some (W xaf x8a xb3 xc9 x03 x81 x88 xbc)) O
(C x37 (Some (W xfc x88 xb3 xc9 x03 x80 x88 xbc)) O
(C x38 (Some (W xe1 x94 xb3 xc9 x03 x87 x88 xbc)) O
(C x39 (Some (W x2e x93 xb3 xc9 x03 x86 x88 xbc)) O
O))))))))))
(C x39 None (C x30 (Some (W xc0 x6d xb0 xc9 x03 xf9 x84 xbc)) O
(C x31 (Some (W x73 x6f xb0 xc9 x03 xfa x84 xbc)) O
(C x32 (Some (W x26 x71 xb0 xc9 x03 xfb x84 xbc)) O
(C x33 (Some (W xd9 x72 xb0 xc9 x03 xfc x84 xbc)) O
(C x34 (Some (W x8c x74 xb0 xc9 x03 xfd x84 xbc)) O
(C x35 (Some (W x3f x76 xb0 xc9 x03 xfe x84 xbc)) O
(C x36 (Some (W xf2 x77 xb0 xc9 x03 xff x84 xbc)) O
(C x37 (Some (W xa5 x79 xb0 xc9 x03 x00 x85 xbc)) O
(C x38 (Some (W x58 x7b xb0 xc9 x03 x01 x85 xbc)) O
(C x39 (Some (W x0b x7d xb0 xc9 x03 x02 x85 xbc)) O
O))))))))))
O))))))))))
O)
O)
(C x72 None (C x61 None (C x5f None (C x30 None (C x30 (Some (W x87 x27 xd5 x4f x49 x4b x07 x36)) O
(C x31 (Some (W xd4 x25 xd5 x4f x49 x4a x07 x36)) O
(C x32 (Some (W xed x2a xd5 x4f x49 x4d x07 x36)) O
(C x33 (Some (W x3a x29 xd5 x4f x49 x4c x07 x36)) O
(C x34 (Some (W xbb x20 xd5 x4f x49 x47 x07 x36)) O
(C x35 (Some (W x08 x1f xd5 x4f x49 x46 x07 x36)) O
(C x36 (Some (W x21 x24 xd5 x4f x49 x49 x07 x36)) O
(C x37 (Some (W x6e x22 xd5 x4f x49 x48 x07 x36)) O
(C x38 (Some (W xef x19 xd5 x4f x49 x43 x07 x36)) O
(C x39 (Some (W x3c x18 xd5 x4f x49 x42 x07 x36)) O
O))))))))))
(C x31 None (C x30 (Some (W xfe x0d xd2 x4f x49 xc5 x03 x36)) (C x30 (Some (W x0a x75 xed xa1 x92 x09 x76 x9a)) O
(C x31 (Some (W xbd x76 xed xa1 x92 x0a x76 x9a)) O
(C x32 (Some (W xa4 x71 xed xa1 x92 x07 x76 x9a)) O
(C x33 (Some (W x57 x73 xed xa1 x92 x08 x76 x9a)) O
(C x34 (Some (W x3e x6e xed xa1 x92 x05 x76 x9a)) O
(C x35 (Some (W xf1 x6f xed xa1 x92 x06 x76 x9a)) O
(C x36 (Some (W xd8 x6a xed xa1 x92 x03 x76 x9a)) O
(C x37 (Some (W x8b x6c xed xa1 x92 x04 x76 x9a)) O
(C x38 (Some (W x72 x67 xed xa1 x92 x01 x76 x9a)) O
(C x39 (Some (W x25 x69 xed xa1 x92 x02 x76 x9a)) O
O))))))))))
(C x31 (Some (W xb1 x0f xd2 x4f x49 xc6 x03 x36)) (C x30 (Some (W x33 x58 xf0 xa1 x92 x6f x79 x9a)) O
(C x31 (Some (W x80 x56 xf0 xa1 x92 x6e x79 x9a)) O
(C x32 (Some (W x99 x5b xf0 xa1 x92 x71 x79 x9a)) O
(C x33 (Some (W xe6 x59 xf0 xa1 x92 x70 x79 x9a)) O
(C x34 (Some (W xff x5e xf0 xa1 x92 x73 x79 x9a)) O
(C x35 (Some (W x4c x5d xf0 xa1 x92 x72 x79 x9a)) O
(C x36 (Some (W x65 x62 xf0 xa1 x92 x75 x79 x9a)) O
(C x37 (Some (W xb2 x60 xf0 xa1 x92 x74 x79 x9a)) O
(C x38 (Some (W xcb x65 xf0 xa1 x92 x77 x79 x9a)) O
(C x39 (Some (W x18 x64 xf0 xa1 x92 x76 x79 x9a)) O
O))))))))))
(C x32 (Some (W x98 x0a xd2 x4f x49 xc3 x03 x36)) (C x30 (Some (W x78 x1b xe8 xa1 x92 x7d x6f x9a)) O
(C x31 (Some (W x2b x1d xe8 xa1 x92 x7e x6f x9a)) O
(C x32 (Some (W xde x1e xe8 xa1 x92 x7f x6f x9a)) O
(C x33 (Some (W x91 x20 xe8 xa1 x92 x80 x6f x9a)) O
(C x34 (Some (W x44 x22 xe8 xa1 x92 x81 x6f x9a)) O
(C x35 (Some (W xf7 x23 xe8 xa1 x92 x82 x6f x9a)) O
(C x36 (Some (W xaa x25 xe8 xa1 x92 x83 x6f x9a)) O
(C x37 (Some (W x5d x27 xe8 xa1 x92 x84 x6f x9a)) O
(C x38 (Some (W xe0 x0d xe8 xa1 x92 x75 x6f x9a)) O
(C x39 (Some (W x93 x0f xe8 xa1 x92 x76 x6f x9a)) O
O))))))))))
(C x33 (Some (W x4b x0c xd2 x4f x49 xc4 x03 x36)) (C x30 (Some (W x01 x35 xeb xa1 x92 x03 x73 x9a)) O
(C x31 (Some (W x4e x33 xeb xa1 x92 x02 x73 x9a)) O
(C x32 (Some (W x9b x31 xeb xa1 x92 x01 x73 x9a)) O
(C x33 (Some (W xe8 x2f xeb xa1 x92 x00 x73 x9a)) O
(C x34 (Some (W xcd x3b xeb xa1 x92 x07 x73 x9a)) O
(C x35 (Some (W x1a x3a xeb xa1 x92 x06 x73 x9a)) O
(C x36 (Some (W x67 x38 xeb xa1 x92 x05 x73 x9a)) O
(C x37 (Some (W xb4 x36 xeb xa1 x92 x04 x73 x9a)) O
(C x38 (Some (W x69 x27 xeb xa1 x92 xfb x72 x9a)) O
(C x39 (Some (W xb6 x25 xeb xa1 x92 xfa x72 x9a)) O
O))))))))))
(C x34 (Some (W xca x14 xd2 x4f x49 xc9 x03 x36)) (C x30 (Some (W xce xa4 xf9 xa1 x92 x01 x84 x9a)) O
(C x31 (Some (W x81 xa6 xf9 xa1 x92 x02 x84 x9a)) O
(C x32 (Some (W x68 xa1 xf9 xa1 x92 xff x83 x9a)) O
(C x33 (Some (W x1b xa3 xf9 xa1 x92 x00 x84 x9a)) O
(C x34 (Some (W x9a xab xf9 xa1 x92 x05 x84 x9a)) O
(C x35 (Some (W x4d xad xf9 xa1 x92 x06 x84 x9a)) O
(C x36 (Some (W x34 xa8 xf9 xa1 x92 x03 x84 x9a)) O
(C x37 (Some (W xe7 xa9 xf9 xa1 x92 x04 x84 x9a)) O
(C x38 (Some (W x36 x97 xf9 xa1 x92 xf9 x83 x9a)) O
(C x39 (Some (W xe9 x98 xf9 xa1 x92 xfa x83 x9a)) O
O))))))))))
(C x35 (Some (W x7d x16 xd2 x4f x49 xca x03 x36)) O
(C x36 (Some (W x64 x11 xd2 x4f x49 xc7 x03 x36)) O
(C x37 (Some (W x17 x13 xd2 x4f x49 xc8 x03 x36)) O
(C x38 (Some (W x66 x00 xd2 x4f x49 xbd x03 x36)) O
(C x39 (Some (W x19 x02 xd2 x4f x49 xbe x03 x36)) O
O))))))))))
(C x32 None (C x30 (Some (W xf5 xcd xcf x4f x49 xbf x00 x36)) O
(C x31 (Some (W x42 xcc xcf x4f x49 xbe x00 x36)) O
(C x32 (Some (W x8f xca xcf x4f x49 xbd x00 x36)) O
(C x33 (Some (W xdc xc8 xcf x4f x49 xbc x00 x36)) O
(C x34 (Some (W x29 xc7 xcf x4f x49 xbb x00 x36)) O
(C x35 (Some (W x76 xc5 xcf x4f x49 xba x00 x36)) O
(C x36 (Some (W xc3 xc3 xcf x4f x49 xb9 x00 x36)) O
(C x37 (Some (W x10 xc2 xcf x4f x49 xb8 x00 x36)) O
(C x38 (Some (W x8d xdb xcf x4f x49 xc7 x00 x36)) O
(C x39 (Some (W xda xd9 xcf x4f x49 xc6 x00 x36)) O
O))))))))))
(C x33 None (C x30 (Some (W x6c xb4 xcc x4f x49 x39 xfd x35)) O
(C x31 (Some (W x1f xb6 xcc x4f x49 x3a xfd x35)) O
(C x32 (Some (W xd2 xb7 xcc x4f x49 x3b xfd x35)) O
(C x33 (Some (W x85 xb9 xcc x4f x49 x3c xfd x35)) O
(C x34 (Some (W xa0 xad xcc x4f x49 x35 xfd x35)) O
(C x35 (Some (W x53 xaf xcc x4f x49 x36 xfd x35)) O
(C x36 (Some (W x06 xb1 xcc x4f x49 x37 xfd x35)) O
(C x37 (Some (W xb9 xb2 xcc x4f x49 x38 xfd x35)) O
(C x38 (Some (W x04 xc2 xcc x4f x49 x41 xfd x35)) O
(C x39 (Some (W xb7 xc3 xcc x4f x49 x42 xfd x35)) O
O))))))))))
(C x34 None (C x30 (Some (W xe3 x9a xc9 x4f x49 xb3 xf9 x35)) O
(C x31 (Some (W x30 x99 xc9 x4f x49 xb2 xf9 x35)) O
(C x32 (Some (W x49 x9e xc9 x4f x49 xb5 xf9 x35)) O
(C x33 (Some (W x96 x9c xc9 x4f x49 xb4 xf9 x35)) O
(C x34 (Some (W xaf xa1 xc9 x4f x49 xb7 xf9 x35)) O
(C x35 (Some (W xfc x9f xc9 x4f x49 xb6 xf9 x35)) O
(C x36 (Some (W x15 xa5 xc9 x4f x49 xb9 xf9 x35)) O
(C x37 (Some (W x62 xa3 xc9 x4f x49 xb8 xf9 x35)) O
(C x38 (Some (W x7b xa8 xc9 x4f x49 xbb xf9 x35)) O
(C x39 (Some (W xc8 xa6 xc9 x4f x49 xba xf9 x35)) O
O))))))))))
(C x35 None (C x30 (Some (W xba xb7 xc6 x4f x49 x4d xf6 x35)) O
(C x31 (Some (W x6d xb9 xc6 x4f x49 x4e xf6 x35)) O
(C x32 (Some (W x54 xb4 xc6 x4f x49 x4b xf6 x35)) O
(C x33 (Some (W x07 xb6 xc6 x4f x49 x4c xf6 x35)) O
(C x34 (Some (W xee xb0 xc6 x4f x49 x49 xf6 x35)) O
(C x35 (Some (W xa1 xb2 xc6 x4f x49 x4a xf6 x35)) O
(C x36 (Some (W x88 xad xc6 x4f x49 x47 xf6 x35)) O
(C x37 (Some (W x3b xaf xc6 x4f x49 x48 xf6 x35)) O
(C x38 (Some (W x22 xaa xc6 x4f x49 x45 xf6 x35)) O
(C x39 (Some (W xd5 xab xc6 x4f x49 x46 xf6 x35)) O
O))))))))))
(C x36 None (C x30 (Some (W x31 x9e xc3 x4f x49 xc7 xf2 x35)) O
(C x31 (Some (W x7e x9c xc3 x4f x49 xc6 xf2 x35)) O
(C x32 (Some (W xcb x9a xc3 x4f x49 xc5 xf2 x35)) O
(C x33 (Some (W x18 x99 xc3 x4f x49 xc4 xf2 x35)) O
(C x34 (Some (W xfd xa4 xc3 x4f x49 xcb xf2 x35)) O
(C x35 (Some (W x4a xa3 xc3 x4f x49 xca xf2 x35)) O
(C x36 (Some (W x97 xa1 xc3 x4f x49 xc9 xf2 x35)) O
(C x37 (Some (W xe4 x9f xc3 x4f x49 xc8 xf2 x35)) O
(C x38 (Some (W x99 x90 xc3 x4f x49 xbf xf2 x35)) O
(C x39 (Some (W xe6 x8e xc3 x4f x49 xbe xf2 x35)) O
O))))))))))
(C x37 None (C x30 (Some (W x28 x5e xc1 x4f x49 xc1 xef x35)) O
(C x31 (Some (W xdb x5f xc1 x4f x49 xc2 xef x35)) O
(C x32 (Some (W x8e x61 xc1 x4f x49 xc3 xef x35)) O
(C x33 (Some (W x41 x63 xc1 x4f x49 xc4 xef x35)) O
(C x34 (Some (W xf4 x64 xc1 x4f x49 xc5 xef x35)) O
(C x35 (Some (W xa7 x66 xc1 x4f x49 xc6 xef x35)) O
(C x36 (Some (W x5a x68 xc1 x4f x49 xc7 xef x35)) O
(C x37 (Some (W x0d x6a xc1 x4f x49 xc8 xef x35)) O
(C x38 (Some (W x90 x50 xc1 x4f x49 xb9 xef x35)) O
(C x39 (Some (W x43 x52 xc1 x4f x49 xba xef x35)) O
O))))))))))
(C x38 None (C x30 (Some (W x9f x44 xbe x4f x49 x3b xec x35)) O
(C x31 (Some (W xec x42 xbe x4f x49 x3a xec x35)) O
(C x32 (Some (W x05 x48 xbe x4f x49 x3d xec x35)) O
(C x33 (Some (W x52 x46 xbe x4f x49 x3c xec x35)) O
(C x34 (Some (W xd3 x3d xbe x4f x49 x37 xec x35)) O
(C x35 (Some (W x20 x3c xbe x4f x49 x36 xec x35)) O
(C x36 (Some (W x39 x41 xbe x4f x49 x39 xec x35)) O
(C x37 (Some (W x86 x3f xbe x4f x49 x38 xec x35)) O
(C x38 (Some (W x37 x52 xbe x4f x49 x43 xec x35)) O
(C x39 (Some (W x84 x50 xbe x4f x49 x42 xec x35)) O
O))))))))))
(C x39 None (C x30 (Some (W x16 x2b xbb x4f x49 xb5 xe8 x35)) O
(C x31 (Some (W xc9 x2c xbb x4f x49 xb6 xe8 x35)) O
(C x32 (Some (W xb0 x27 xbb x4f x49 xb3 xe8 x35)) O
(C x33 (Some (W x63 x29 xbb x4f x49 xb4 xe8 x35)) O
(C x34 (Some (W xe2 x31 xbb x4f x49 xb9 xe8 x35)) O
(C x35 (Some (W x95 x33 xbb x4f x49 xba xe8 x35)) O
(C x36 (Some (W x7c x2e xbb x4f x49 xb7 xe8 x35)) O
(C x37 (Some (W x2f x30 xbb x4f x49 xb8 xe8 x35)) O
(C x38 (Some (W xae x38 xbb x4f x49 xbd xe8 x35)) O
(C x39 (Some (W x61 x3a xbb x4f x49 xbe xe8 x35)) O
O))))))))))
O))))))))))
O)
O)
O)))
O)
O)
O)
(C x67 None (C x6d None (C x6b None (C x5f None (C x65 None (C x78 None (C x5f None (C x30 None (C x30 (Some (W x4b xa9 xbf x28 xdd x03 xab x18)) O
(C x31 (Some (W x98 xa7 xbf x28 xdd x02 xab x18)) O
(C x32 (Some (W xb1 xac xbf x28 xdd x05 xab x18)) O
(C x33 (Some (W xfe xaa xbf x28 xdd x04 xab x18)) O
(C x34 (Some (W x17 xb0 xbf x28 xdd x07 xab x18)) O
(C x35 (Some (W x64 xae xbf x28 xdd x06 xab x18)) O
(C x36 (Some (W x7d xb3 xbf x28 xdd x09 xab x18)) O
(C x37 (Some (W xca xb1 xbf x28 xdd x08 xab x18)) O
(C x38 (Some (W xb3 x9b xbf x28 xdd xfb xaa x18)) O
(C x39 (Some (W x00 x9a xbf x28 xdd xfa xaa x18)) O
O))))))))))
(C x31 None (C x30 (Some (W x42 x69 xbd x28 xdd xfd xa7 x18)) (C x30 (Some (W xb6 x2c xda x39 xcc xd0 xdd xa2)) O
(C x31 (Some (W x69 x2e xda x39 xcc xd1 xdd xa2)) O
(C x32 (Some (W x50 x29 xda x39 xcc xce xdd xa2)) O
(C x33 (Some (W x03 x2b xda x39 xcc xcf xdd xa2)) O
(C x34 (Some (W x82 x33 xda x39 xcc xd4 xdd xa2)) O
(C x35 (Some (W x35 x35 xda x39 xcc xd5 xdd xa2)) O
(C x36 (Some (W x1c x30 xda x39 xcc xd2 xdd xa2)) O
(C x37 (Some (W xcf x31 xda x39 xcc xd3 xdd xa2)) O
(C x38 (Some (W x4e x3a xda x39 xcc xd8 xdd xa2)) O
(C x39 (Some (W x01 x3c xda x39 xcc xd9 xdd xa2)) O
O))))))))))
(C x31 (Some (W xf5 x6a xbd x28 xdd xfe xa7 x18)) (C x30 (Some (W xbf x6c xdc x39 xcc xd6 xe0 xa2)) O
(C x31 (Some (W x0c x6b xdc x39 xcc xd5 xe0 xa2)) O
(C x32 (Some (W x25 x70 xdc x39 xcc xd8 xe0 xa2)) O
(C x33 (Some (W x72 x6e xdc x39 xcc xd7 xe0 xa2)) O
(C x34 (Some (W xf3 x65 xdc x39 xcc xd2 xe0 xa2)) O
(C x35 (Some (W x40 x64 xdc x39 xcc xd1 xe0 xa2)) O
(C x36 (Some (W x59 x69 xdc x39 xcc xd4 xe0 xa2)) O
(C x37 (Some (W xa6 x67 xdc x39 xcc xd3 xe0 xa2)) O
(C x38 (Some (W x57 x7a xdc x39 xcc xde xe0 xa2)) O
(C x39 (Some (W xa4 x78 xdc x39 xcc xdd xe0 xa2)) O
O))))))))))
(C x32 (Some (W xdc x65 xbd x28 xdd xfb xa7 x18)) (C x30 (Some (W x04 x30 xd4 x39 xcc xe4 xd6 xa2)) O
(C x31 (Some (W xb7 x31 xd4 x39 xcc xe5 xd6 xa2)) O
(C x32 (Some (W x6a x33 xd4 x39 xcc xe6 xd6 xa2)) O
(C x33 (Some (W x1d x35 xd4 x39 xcc xe7 xd6 xa2)) O
(C x34 (Some (W x38 x29 xd4 x39 xcc xe0 xd6 xa2)) O
(C x35 (Some (W xeb x2a xd4 x39 xcc xe1 xd6 xa2)) O
(C x36 (Some (W x9e x2c xd4 x39 xcc xe2 xd6 xa2)) O
(C x37 (Some (W x51 x2e xd4 x39 xcc xe3 xd6 xa2)) O
(C x38 (Some (W x6c x22 xd4 x39 xcc xdc xd6 xa2)) O
(C x39 (Some (W x1f x24 xd4 x39 xcc xdd xd6 xa2)) O
O))))))))))
(C x33 (Some (W x8f x67 xbd x28 xdd xfc xa7 x18)) (C x30 (Some (W x8d x49 xd7 x39 xcc x6a xda xa2)) O
(C x31 (Some (W xda x47 xd7 x39 xcc x69 xda xa2)) O
(C x32 (Some (W x27 x46 xd7 x39 xcc x68 xda xa2)) O
(C x33 (Some (W x74 x44 xd7 x39 xcc x67 xda xa2)) O
(C x34 (Some (W xc1 x42 xd7 x39 xcc x66 xda xa2)) O
(C x35 (Some (W x0e x41 xd7 x39 xcc x65 xda xa2)) O
(C x36 (Some (W x5b x3f xd7 x39 xcc x64 xda xa2)) O
(C x37 (Some (W xa8 x3d xd7 x39 xcc x63 xda xa2)) O
(C x38 (Some (W xf5 x3b xd7 x39 xcc x62 xda xa2)) O
(C x39 (Some (W x42 x3a xd7 x39 xcc x61 xda xa2)) O
O))))))))))
(C x34 (Some (W x76 x62 xbd x28 xdd xf9 xa7 x18)) (C x30 (Some (W xf2 xfc xcd x39 xcc xd8 xcf xa2)) O
(C x31 (Some (W xa5 xfe xcd x39 xcc xd9 xcf xa2)) O
(C x32 (Some (W x8c xf9 xcd x39 xcc xd6 xcf xa2)) O
(C x33 (Some (W x3f xfb xcd x39 xcc xd7 xcf xa2)) O
(C x34 (Some (W x26 xf6 xcd x39 xcc xd4 xcf xa2)) O
(C x35 (Some (W xd9 xf7 xcd x39 xcc xd5 xcf xa2)) O
(C x36 (Some (W xc0 xf2 xcd x39 xcc xd2 xcf xa2)) O
(C x37 (Some (W x73 xf4 xcd x39 xcc xd3 xcf xa2)) O
(C x38 (Some (W x8a x0a xce x39 xcc xe0 xcf xa2)) O
(C x39 (Some (W x3d x0c xce x39 xcc xe1 xcf xa2)) O
O))))))))))
(C x35 (Some (W x29 x64 xbd x28 xdd xfa xa7 x18)) O
(C x36 (Some (W x10 x5f xbd x28 xdd xf7 xa7 x18)) O
(C x37 (Some (W xc3 x60 xbd x28 xdd xf8 xa7 x18)) O
(C x38 (Some (W xda x76 xbd x28 xdd x05 xa8 x18)) O
(C x39 (Some (W x8d x78 xbd x28 xdd x06 xa8 x18)) O
O))))))))))
(C x32 None (C x30 (Some (W xb9 x4f xba x28 xdd x77 xa4 x18)) O
(C x31 (Some (W x06 x4e xba x28 xdd x76 xa4 x18)) O
(C x32 (Some (W x53 x4c xba x28 xdd x75 xa4 x18)) O
(C x33 (Some (W xa0 x4a xba x28 xdd x74 xa4 x18)) O
(C x34 (Some (W x85 x56 xba x28 xdd x7b xa4 x18)) O
(C x35 (Some (W xd2 x54 xba x28 xdd x7a xa4 x18)) O
(C x36 (Some (W x1f x53 xba x28 xdd x79 xa4 x18)) O
(C x37 (Some (W x6c x51 xba x28 xdd x78 xa4 x18)) O
(C x38 (Some (W x51 x5d xba x28 xdd x7f xa4 x18)) O
(C x39 (Some (W x9e x5b xba x28 xdd x7e xa4 x18)) O
O))))))))))
(C x33 None (C x30 (Some (W x30 x36 xb7 x28 xdd xf1 xa0 x18)) O
(C x31 (Some (W xe3 x37 xb7 x28 xdd xf2 xa0 x18)) O
(C x32 (Some (W x96 x39 xb7 x28 xdd xf3 xa0 x18)) O
(C x33 (Some (W x49 x3b xb7 x28 xdd xf4 xa0 x18)) O
(C x34 (Some (W xfc x3c xb7 x28 xdd xf5 xa0 x18)) O
(C x35 (Some (W xaf x3e xb7 x28 xdd xf6 xa0 x18)) O
(C x36 (Some (W x62 x40 xb7 x28 xdd xf7 xa0 x18)) O
(C x37 (Some (W x15 x42 xb7 x28 xdd xf8 xa0 x18)) O
(C x38 (Some (W xc8 x43 xb7 x28 xdd xf9 xa0 x18)) O
(C x39 (Some (W x7b x45 xb7 x28 xdd xfa xa0 x18)) O
O))))))))))
(C x34 None (C x30 (Some (W x0f xd9 xcb x28 xdd xfb xb8 x18)) O
(C x31 (Some (W x5c xd7 xcb x28 xdd xfa xb8 x18)) O
(C x32 (Some (W x75 xdc xcb x28 xdd xfd xb8 x18)) O
(C x33 (Some (W xc2 xda xcb x28 xdd xfc xb8 x18)) O
(C x34 (Some (W x43 xd2 xcb x28 xdd xf7 xb8 x18)) O
(C x35 (Some (W x90 xd0 xcb x28 xdd xf6 xb8 x18)) O
(C x36 (Some (W xa9 xd5 xcb x28 xdd xf9 xb8 x18)) O
(C x37 (Some (W xf6 xd3 xcb x28 xdd xf8 xb8 x18)) O
(C x38 (Some (W xa7 xe6 xcb x28 xdd x03 xb9 x18)) O
(C x39 (Some (W xf4 xe4 xcb x28 xdd x02 xb9 x18)) O
O))))))))))
(C x35 None (C x30 (Some (W x86 xbf xc8 x28 xdd x75 xb5 x18)) O
(C x31 (Some (W x39 xc1 xc8 x28 xdd x76 xb5 x18)) O
(C x32 (Some (W x20 xbc xc8 x28 xdd x73 xb5 x18)) O
(C x33 (Some (W xd3 xbd xc8 x28 xdd x74 xb5 x18)) O
(C x34 (Some (W x52 xc6 xc8 x28 xdd x79 xb5 x18)) O
(C x35 (Some (W x05 xc8 xc8 x28 xdd x7a xb5 x18)) O
(C x36 (Some (W xec xc2 xc8 x28 xdd x77 xb5 x18)) O
(C x37 (Some (W x9f xc4 xc8 x28 xdd x78 xb5 x18)) O
(C x38 (Some (W x1e xcd xc8 x28 xdd x7d xb5 x18)) O
(C x39 (Some (W xd1 xce xc8 x28 xdd x7e xb5 x18)) O
O))))))))))
(C x36 None (C x30 (Some (W x5d xdc xc5 x28 xdd x0f xb2 x18)) O
(C x31 (Some (W xaa xda xc5 x28 xdd x0e xb2 x18)) O
(C x32 (Some (W xf7 xd8 xc5 x28 xdd x0d xb2 x18)) O
(C x33 (Some (W x44 xd7 xc5 x28 xdd x0c xb2 x18)) O
(C x34 (Some (W x91 xd5 xc5 x28 xdd x0b xb2 x18)) O
(C x35 (Some (W xde xd3 xc5 x28 xdd x0a xb2 x18)) O
(C x36 (Some (W x2b xd2 xc5 x28 xdd x09 xb2 x18)) O
(C x37 (Some (W x78 xd0 xc5 x28 xdd x08 xb2 x18)) O
(C x38 (Some (W xc5 xce xc5 x28 xdd x07 xb2 x18)) O
(C x39 (Some (W x12 xcd xc5 x28 xdd x06 xb2 x18)) O
O))))))))))
(C x37 None (C x30 (Some (W xd4 xc2 xc2 x28 xdd x89 xae x18)) O
(C x31 (Some (W x87 xc4 xc2 x28 xdd x8a xae x18)) O
(C x32 (Some (W x3a xc6 xc2 x28 xdd x8b xae x18)) O
(C x33 (Some (W xed xc7 xc2 x28 xdd x8c xae x18)) O
(C x34 (Some (W x08 xbc xc2 x28 xdd x85 xae x18)) O
(C x35 (Some (W xbb xbd xc2 x28 xdd x86 xae x18)) O
(C x36 (Some (W x6e xbf xc2 x28 xdd x87 xae x18)) O
(C x37 (Some (W x21 xc1 xc2 x28 xdd x88 xae x18)) O
(C x38 (Some (W x3c xb5 xc2 x28 xdd x81 xae x18)) O
(C x39 (Some (W xef xb6 xc2 x28 xdd x82 xae x18)) O
O))))))))))
(C x38 None (C x30 (Some (W x53 x2f xd7 x28 xdd x73 xc6 x18)) O
(C x31 (Some (W xa0 x2d xd7 x28 xdd x72 xc6 x18)) O
(C x32 (Some (W xb9 x32 xd7 x28 xdd x75 xc6 x18)) O
(C x33 (Some (W x06 x31 xd7 x28 xdd x74 xc6 x18)) O
(C x34 (Some (W x1f x36 xd7 x28 xdd x77 xc6 x18)) O
(C x35 (Some (W x6c x34 xd7 x28 xdd x76 xc6 x18)) O
(C x36 (Some (W x85 x39 xd7 x28 xdd x79 xc6 x18)) O
(C x37 (Some (W xd2 x37 xd7 x28 xdd x78 xc6 x18)) O
(C x38 (Some (W xeb x3c xd7 x28 xdd x7b xc6 x18)) O
(C x39 (Some (W x38 x3b xd7 x28 xdd x7a xc6 x18)) O
O))))))))))
(C x39 None (C x30 (Some (W x2a x4c xd4 x28 xdd x0d xc3 x18)) O
(C x31 (Some (W xdd x4d xd4 x28 xdd x0e xc3 x18)) O
(C x32 (Some (W xc4 x48 xd4 x28 xdd x0b xc3 x18)) O
(C x33 (Some (W x77 x4a xd4 x28 xdd x0c xc3 x18)) O
(C x34 (Some (W x5e x45 xd4 x28 xdd x09 xc3 x18)) O
(C x35 (Some (W x11 x47 xd4 x28 xdd x0a xc3 x18)) O
(C x36 (Some (W xf8 x41 xd4 x28 xdd x07 xc3 x18)) O
(C x37 (Some (W xab x43 xd4 x28 xdd x08 xc3 x18)) O
(C x38 (Some (W x92 x3e xd4 x28 xdd x05 xc3 x18)) O
(C x39 (Some (W x45 x40 xd4 x28 xdd x06 xc3 x18)) O
O))))))))))
O))))))))))
O)
O)
(C x6e None (C x6f None (C x5f None (C x30 None (C x30 (Some (W xfd xfc x65 x8e x65 x6c x78 x37)) (C x5f None (C x30 None (C x30 (Some (W x76 x65 x81 xcd x18 x67 xd1 xc6)) (C x5f None (C x30 None (C x30 (Some (W xa3 xf2 x9d x93 xce x31 x37 x38)) O
(C x31 (Some (W xf0 xf0 x9d x93 xce x30 x37 x38)) O
(C x32 (Some (W x09 xf6 x9d x93 xce x33 x37 x38)) O
O)))
O)
O)
(C x31 (Some (W x29 x67 x81 xcd x18 x68 xd1 xc6)) (C x5f None (C x30 None (C x30 (Some (W xf2 x75 x1b xde xd9 x3b xff x0e)) O
(C x31 (Some (W xa5 x77 x1b xde xd9 x3c xff x0e)) O
(C x32 (Some (W x8c x72 x1b xde xd9 x39 xff x0e)) O
O)))
O)
O)
(C x32 (Some (W x10 x62 x81 xcd x18 x65 xd1 xc6)) (C x5f None (C x30 None (C x30 (Some (W x45 x90 xb5 x95 xc0 x7d x84 xb4)) O
(C x31 (Some (W x92 x8e xb5 x95 xc0 x7c x84 xb4)) O
(C x32 (Some (W xdf x8c xb5 x95 xc0 x7b x84 xb4)) O
O)))
O)
O)
O)))
O)
O)
(C x31 (Some (W x4a xfb x65 x8e x65 x6b x78 x37)) (C x5f None (C x30 None (C x30 (Some (W x47 x3f x02 x31 x11 x3d x25 x6f)) (C x5f None (C x30 None (C x30 (Some (W x88 x71 x4c x46 x1f xb3 x89 x0b)) O
(C x31 (Some (W x3b x73 x4c x46 x1f xb4 x89 x0b)) O
(C x32 (Some (W xee x74 x4c x46 x1f xb5 x89 x0b)) O
O)))
O)
O)
(C x31 (Some (W x94 x3d x02 x31 x11 x3c x25 x6f)) (C x5f None (C x30 None (C x30 (Some (W x59 xc7 x70 xe3 x18 xa9 xcf xdd)) O
(C x31 (Some (W xa6 xc5 x70 xe3 x18 xa8 xcf xdd)) O
(C x32 (Some (W xf3 xc3 x70 xe3 x18 xa7 xcf xdd)) O
O)))
O)
O)
(C x32 (Some (W xad x42 x02 x31 x11 x3f x25 x6f)) (C x5f None (C x30 None (C x30 (Some (W x66 xea xc1 x2a x32 x67 x04 x37)) O
(C x31 (Some (W x19 xec xc1 x2a x32 x68 x04 x37)) O
(C x32 (Some (W x00 xe7 xc1 x2a x32 x65 x04 x37)) O
O)))
O)
O)
O)))
O)
O)
(C x32 (Some (W x97 xf9 x65 x8e x65 x6a x78 x37)) (C x5f None (C x30 None (C x30 (Some (W x98 x29 x98 xcf x0a x33 x1e x43)) (C x5f None (C x30 None (C x30 (Some (W x2d x0c x7a x72 x26 xb2 x0b xee)) O
(C x31 (Some (W x7a x0a x7a x72 x26 xb1 x0b xee)) O
(C x32 (Some (W xc7 x08 x7a x72 x26 xb0 x0b xee)) O
O)))
O)
O)
(C x31 (Some (W x4b x2b x98 xcf x0a x34 x1e x43)) (C x5f None (C x30 None (C x30 (Some (W x7c xeb xe3 xd3 x2c x9c x12 x1a)) O
(C x31 (Some (W x2f xed xe3 xd3 x2c x9d x12 x1a)) O
(C x32 (Some (W xe2 xee xe3 xd3 x2c x9e x12 x1a)) O
O)))
O)
O)
(C x32 (Some (W xfe x2c x98 xcf x0a x35 x1e x43)) (C x5f None (C x30 None (C x30 (Some (W x8b x6e x62 x70 x34 x66 xbe x71)) O
(C x31 (Some (W xd8 x6c x62 x70 x34 x65 xbe x71)) O
(C x32 (Some (W xf1 x71 x62 x70 x34 x68 xbe x71)) O
O)))
O)
O)
O)))
O)
O)
(C x33 (Some (W xe4 xf7 x65 x8e x65 x69 x78 x37)) (C x5f None (C x30 None (C x30 (Some (W x29 xed x2f xc0 x00 x69 xfb x97)) (C x5f None (C x30 None (C x30 (Some (W xf2 xf7 xa2 x0b x25 xaf x6c x34)) O
(C x31 (Some (W xa5 xf9 xa2 x0b x25 xb0 x6c x34)) O
(C x32 (Some (W x8c xf4 xa2 x0b x25 xad x6c x34)) O
O)))
O)
O)
(C x31 (Some (W x76 xeb x2f xc0 x00 x68 xfb x97)) (C x5f None (C x30 None (C x30 (Some (W xa3 x74 x25 xc1 x19 xa5 xa4 x5d)) O
(C x31 (Some (W xf0 x72 x25 xc1 x19 xa4 xa4 x5d)) O
(C x32 (Some (W x09 x78 x25 xc1 x19 xa7 xa4 x5d)) O
O)))
O)
O)
(C x32 (Some (W xc3 xe9 x2f xc0 x00 x67 xfb x97)) (C x5f None (C x30 None (C x30 (Some (W x94 xea xbb x25 x12 xfb x3e x07)) O
(C x31 (Some (W x47 xec xbb x25 x12 xfc x3e x07)) O
(C x32 (Some (W xfa xed xbb x25 x12 xfd x3e x07)) O
O)))
O)
O)
O)))
O)
O)
(C x34 (Some (W x31 xf6 x65 x8e x65 x68 x78 x37)) (C x5f None (C x30 None (C x30 (Some (W xba x71 xb0 x5d xfa xfe xad x6a)) (C x5f None (C x30 None (C x30 (Some (W xb7 x97 xae xff x2f x7d xb3 x01)) O
(C x31 (Some (W x04 x96 xae xff x2f x7c xb3 x01)) O
(C x32 (Some (W x1d x9b xae xff x2f x7f xb3 x01)) O
O)))
O)
O)
(C x31 (Some (W x6d x73 xb0 x5d xfa xff xad x6a)) (C x5f None (C x30 None (C x30 (Some (W x26 xa5 xbb x60 x36 x67 x4d x2d)) O
(C x31 (Some (W xd9 xa6 xbb x60 x36 x68 x4d x2d)) O
(C x32 (Some (W xc0 xa1 xbb x60 x36 x65 x4d x2d)) O
O)))
O)
O)
(C x32 (Some (W x54 x6e xb0 x5d xfa xfc xad x6a)) (C x5f None (C x30 None (C x30 (Some (W x19 x82 x6a x19 x1d xa9 x18 xd4)) O
(C x31 (Some (W x66 x80 x6a x19 x1d xa8 x18 xd4)) O
(C x32 (Some (W xb3 x7e x6a x19 x1d xa7 x18 xd4)) O
O)))
O)
O)
O)))
O)
O)
(C x35 (Some (W x7e xf4 x65 x8e x65 x67 x78 x37)) (C x5f None (C x30 None (C x30 (Some (W x0b xb1 x47 x14 xef xf4 x2b x95)) (C x5f None (C x30 None (C x30 (Some (W x3c x18 x16 x00 x48 x69 x72 x23)) O
(C x31 (Some (W xef x19 x16 x00 x48 x6a x72 x23)) O
(C x32 (Some (W xa2 x1b x16 x00 x48 x6b x72 x23)) O
O)))
O)
O)
(C x31 (Some (W x58 xaf x47 x14 xef xf3 x2b x95)) (C x5f None (C x30 None (C x30 (Some (W xed x8d xad xb6 x3c x7f xf0 x4d)) O
(C x31 (Some (W x3a x8c xad xb6 x3c x7e xf0 x4d)) O
(C x32 (Some (W x87 x8a xad xb6 x3c x7d xf0 x4d)) O
O)))
O)
O)
(C x32 (Some (W x71 xb4 x47 x14 xef xf6 x2b x95)) (C x5f None (C x30 None (C x30 (Some (W xfa xb0 xfe xfd x55 x3d x25 xa7)) O
(C x31 (Some (W xad xb2 xfe xfd x55 x3e x25 xa7)) O
(C x32 (Some (W x94 xad xfe xfd x55 x3b x25 xa7)) O
O)))
O)
O)
O)))
O)
O)
(C x36 (Some (W xcb xf2 x65 x8e x65 x66 x78 x37)) (C x5f None (C x30 None (C x30 (Some (W xfc x2d xc9 x77 xe7 x2a x80 x3d)) (C x5f None (C x30 None (C x30 (Some (W xc1 xef x33 x58 xb5 xed xcf x74)) O
(C x31 (Some (W x0e xee x33 x58 xb5 xec xcf x74)) O
(C x32 (Some (W x5b xec x33 x58 xb5 xeb xcf x74)) O
O)))
O)
O)
(C x31 (Some (W xaf x2f xc9 x77 xe7 x2b x80 x3d)) (C x5f None (C x30 None (C x30 (Some (W xb0 x3c xb1 xa2 xc0 xd7 x97 x4b)) O
(C x31 (Some (W x63 x3e xb1 xa2 xc0 xd8 x97 x4b)) O
(C x32 (Some (W x16 x40 xb1 xa2 xc0 xd9 x97 x4b)) O
O)))
O)
O)
(C x32 (Some (W x62 x31 xc9 x77 xe7 x2c x80 x3d)) (C x5f None (C x30 None (C x30 (Some (W x5f x52 x1b x04 xc7 xe1 x9e x77)) O
(C x31 (Some (W xac x50 x1b x04 xc7 xe0 x9e x77)) O
(C x32 (Some (W xc5 x55 x1b x04 xc7 xe3 x9e x77)) O
O)))
O)
O)
O)))
O)
O)
(C x37 (Some (W x18 xf1 x65 x8e x65 x65 x78 x37)) (C x5f None (C x30 None (C x30 (Some (W xad x4e x5f x16 xe1 x40 x79 x11)) (C x5f None (C x30 None (C x30 (Some (W x66 xee xd0 x85 xc8 x4d xdf x81)) O
(C x31 (Some (W x19 xf0 xd0 x85 xc8 x4e xdf x81)) O
(C x32 (Some (W x00 xeb xd0 x85 xc8 x4b xdf x81)) O
O)))
O)
O)
(C x31 (Some (W xfa x4c x5f x16 xe1 x3f x79 x11)) (C x5f None (C x30 None (C x30 (Some (W xf7 x35 xc5 x3c xbd x63 xca xac)) O
(C x31 (Some (W x44 x34 xc5 x3c xbd x62 xca xac)) O
(C x32 (Some (W x5d x39 xc5 x3c xbd x65 xca xac)) O
O)))
O)
O)
(C x32 (Some (W x47 x4b x5f x16 xe1 x3e x79 x11)) (C x5f None (C x30 None (C x30 (Some (W x88 x75 x5b xa1 xb5 x99 x64 x56)) O
(C x31 (Some (W x3b x77 x5b xa1 xb5 x9a x64 x56)) O
(C x32 (Some (W xee x78 x5b xa1 xb5 x9b x64 x56)) O
O)))
O)
O)
O)))
O)
O)
(C x38 (Some (W x65 xef x65 x8e x65 x64 x78 x37)) (C x5f None (C x30 None (C x30 (Some (W x9e x0a x53 x07 xd7 xf6 xc2 x66)) (C x5f None (C x30 None (C x30 (Some (W x6b x30 xc0 x00 x00 xce x39 x34)) O
(C x31 (Some (W xb8 x2e xc0 x00 x00 xcd x39 x34)) O
(C x32 (Some (W xd1 x33 xc0 x00 x00 xd0 x39 x34)) O
O)))
O)
O)
(C x31 (Some (W x51 x0c x53 x07 xd7 xf7 xc2 x66)) (C x5f None (C x30 None (C x30 (Some (W x9a xda x9b x63 x06 xd8 xf3 x61)) O
(C x31 (Some (W x4d xdc x9b x63 x06 xd9 xf3 x61)) O
(C x32 (Some (W x34 xd7 x9b x63 x06 xd6 xf3 x61)) O
O)))
O)
O)
(C x32 (Some (W x38 x07 x53 x07 xd7 xf4 xc2 x66)) (C x5f None (C x30 None (C x30 (Some (W x0d x0d x4a x90 xef x99 x7c x5d)) O
(C x31 (Some (W x5a x0b x4a x90 xef x98 x7c x5d)) O
(C x32 (Some (W xa7 x09 x4a x90 xef x97 x7c x5d)) O
O)))
O)
O)
O)))
O)
O)
(C x39 (Some (W xb2 xed x65 x8e x65 x63 x78 x37)) (C x5f None (C x30 None (C x30 (Some (W x6f x60 x77 xa4 xd0 xec x08 x39)) (C x5f None (C x30 None (C x30 (Some (W x70 xf7 xaa xd8 xc4 xd7 xe0 x41)) O
(C x31 (Some (W x23 xf9 xaa xd8 xc4 xd8 xe0 x41)) O
(C x32 (Some (W xd6 xfa xaa xd8 xc4 xd9 xe0 x41)) O
O)))
O)
O)
(C x31 (Some (W xbc x5e x77 xa4 xd0 xeb x08 x39)) (C x5f None (C x30 None (C x30 (Some (W x81 x55 x2c x76 xbe xed x93 x14)) O
(C x31 (Some (W xce x53 x2c x76 xbe xec x93 x14)) O
(C x32 (Some (W x1b x52 x2c x76 xbe xeb x93 x14)) O
O)))
O)
O)
(C x32 (Some (W xd5 x63 x77 xa4 xd0 xee x08 x39)) (C x5f None (C x30 None (C x30 (Some (W x0e x23 x7e x49 xd5 x2b x0b x19)) O
(C x31 (Some (W xc1 x24 x7e x49 xd5 x2c x0b x19)) O
(C x32 (Some (W xa8 x1f x7e x49 xd5 x29 x0b x19)) O
O)))
O)
O)
O)))
O)
O)
O))))))))))
(C x31 None (C x30 (Some (W xf4 xbc x63 x8e x65 x66 x75 x37)) (C x30 (Some (W x0c xc1 x79 xf3 x90 xc2 x39 xa0)) O
(C x31 (Some (W xbf xc2 x79 xf3 x90 xc3 x39 xa0)) O
(C x32 (Some (W x72 xc4 x79 xf3 x90 xc4 x39 xa0)) O
(C x33 (Some (W x25 xc6 x79 xf3 x90 xc5 x39 xa0)) O
(C x34 (Some (W x40 xba x79 xf3 x90 xbe x39 xa0)) O
(C x35 (Some (W xf3 xbb x79 xf3 x90 xbf x39 xa0)) O
(C x36 (Some (W xa6 xbd x79 xf3 x90 xc0 x39 xa0)) O
(C x37 (Some (W x59 xbf x79 xf3 x90 xc1 x39 xa0)) O
(C x38 (Some (W xa4 xce x79 xf3 x90 xca x39 xa0)) O
(C x39 (Some (W x57 xd0 x79 xf3 x90 xcb x39 xa0)) O
(C x5f None (C x30 None (C x30 (Some (W xf9 xfd x4b xfc x0e xcd xa0 x53)) (C x5f None (C x30 None (C x30 (Some (W x02 xa6 x65 x65 xde x01 x00 xd2)) O
(C x31 (Some (W xb5 xa7 x65 x65 xde x02 x00 xd2)) O
(C x32 (Some (W x9c xa2 x65 x65 xde xff xff xd1)) O
O)))
O)
O)
(C x31 (Some (W x46 xfc x4b xfc x0e xcc xa0 x53)) (C x5f None (C x30 None (C x30 (Some (W x73 x49 xe6 xc8 xd6 xb7 x53 x7a)) O
(C x31 (Some (W xc0 x47 xe6 xc8 xd6 xb6 x53 x7a)) O
(C x32 (Some (W xd9 x4c xe6 xc8 xd6 xb9 x53 x7a)) O
O)))
O)
O)
(C x32 (Some (W x93 xfa x4b xfc x0e xcb xa0 x53)) (C x5f None (C x30 None (C x30 (Some (W x24 x6a x7c x67 xd0 xcd x4c x4e)) O
(C x31 (Some (W xd7 x6b x7c x67 xd0 xce x4c x4e)) O
(C x32 (Some (W x8a x6d x7c x67 xd0 xcf x4c x4e)) O
O)))
O)
O)
O)))
O)
O)))))))))))
(C x31 (Some (W xa7 xbe x63 x8e x65 x67 x75 x37)) (C x30 (Some (W x95 xda x7c xf3 x90 x48 x3d xa0)) O
(C x31 (Some (W xe2 xd8 x7c xf3 x90 x47 x3d xa0)) O
(C x32 (Some (W x2f xd7 x7c xf3 x90 x46 x3d xa0)) O
(C x33 (Some (W x7c xd5 x7c xf3 x90 x45 x3d xa0)) O
(C x34 (Some (W xc9 xd3 x7c xf3 x90 x44 x3d xa0)) O
(C x35 (Some (W x16 xd2 x7c xf3 x90 x43 x3d xa0)) O
(C x36 (Some (W x63 xd0 x7c xf3 x90 x42 x3d xa0)) O
(C x37 (Some (W xb0 xce x7c xf3 x90 x41 x3d xa0)) O
(C x38 (Some (W x2d xe8 x7c xf3 x90 x50 x3d xa0)) O
(C x39 (Some (W x7a xe6 x7c xf3 x90 x4f x3d xa0)) O
(C x5f None (C x30 None (C x30 (Some (W xa8 xbe xb4 x45 x1a xd7 x22 x29)) (C x5f None (C x30 None (C x30 (Some (W xbd xb7 x8a x11 xca xd5 xa9 x2d)) O
(C x31 (Some (W x0a xb6 x8a x11 xca xd4 xa9 x2d)) O
(C x32 (Some (W x57 xb4 x8a x11 xca xd3 xa9 x2d)) O
O)))
O)
O)
(C x31 (Some (W x5b xc0 xb4 x45 x1a xd8 x22 x29)) (C x5f None (C x30 None (C x30 (Some (W xcc x80 x66 x3a xcf xff x04 x31)) O
(C x31 (Some (W x7f x82 x66 x3a xcf x00 x05 x31)) O
(C x32 (Some (W x32 x84 x66 x3a xcf x01 x05 x31)) O
O)))
O)
O)
(C x32 (Some (W x0e xc2 xb4 x45 x1a xd9 x22 x29)) (C x5f None (C x30 None (C x30 (Some (W x1b x49 x73 x83 xda x89 x1a x06)) O
(C x31 (Some (W x68 x47 x73 x83 xda x88 x1a x06)) O
(C x32 (Some (W x81 x4c x73 x83 xda x8b x1a x06)) O
O)))
O)
O)
O)))
O)
O)))))))))))
(C x32 (Some (W x5a xc0 x63 x8e x65 x68 x75 x37)) (C x30 (Some (W x1e xf4 x7f xf3 x90 xce x40 xa0)) O
(C x31 (Some (W xd1 xf5 x7f xf3 x90 xcf x40 xa0)) O
(C x32 (Some (W xb8 xf0 x7f xf3 x90 xcc x40 xa0)) O
(C x33 (Some (W x6b xf2 x7f xf3 x90 xcd x40 xa0)) O
(C x34 (Some (W xea xfa x7f xf3 x90 xd2 x40 xa0)) O
(C x35 (Some (W x9d xfc x7f xf3 x90 xd3 x40 xa0)) O
(C x36 (Some (W x84 xf7 x7f xf3 x90 xd0 x40 xa0)) O
(C x37 (Some (W x37 xf9 x7f xf3 x90 xd1 x40 xa0)) O
(C x38 (Some (W x86 xe6 x7f xf3 x90 xc6 x40 xa0)) O
(C x39 (Some (W x39 xe8 x7f xf3 x90 xc7 x40 xa0)) O
(C x5f None (C x30 None (C x30 (Some (W x17 x50 x1e x6d x1f xa1 xca x2a)) (C x5f None (C x30 None (C x30 (Some (W x18 xf1 x0c x88 xdd x85 x97 x52)) O
(C x31 (Some (W xcb xf2 x0c x88 xdd x86 x97 x52)) O
(C x32 (Some (W x7e xf4 x0c x88 xdd x87 x97 x52)) O
O)))
O)
O)
(C x31 (Some (W x64 x4e x1e x6d x1f xa0 xca x2a)) (C x5f None (C x30 None (C x30 (Some (W xa9 xb4 xa4 x78 xd3 xbb x74 xa7)) O
(C x31 (Some (W xf6 xb2 xa4 x78 xd3 xba x74 xa7)) O
(C x32 (Some (W x43 xb1 xa4 x78 xd3 xb9 x74 xa7)) O
O)))
O)
O)
(C x32 (Some (W x7d x53 x1e x6d x1f xa3 xca x2a)) (C x5f None (C x30 None (C x30 (Some (W xf6 x2c xf6 x85 xeb xb9 x4a xd6)) O
(C x31 (Some (W xa9 x2e xf6 x85 xeb xba x4a xd6)) O
(C x32 (Some (W x90 x29 xf6 x85 xeb xb7 x4a xd6)) O
O)))
O)
O)
O)))
O)
O)))))))))))
(C x33 (Some (W x0d xc2 x63 x8e x65 x69 x75 x37)) (C x30 (Some (W xa7 x0d x83 xf3 x90 x54 x44 xa0)) O
(C x31 (Some (W xf4 x0b x83 xf3 x90 x53 x44 xa0)) O
(C x32 (Some (W x0d x11 x83 xf3 x90 x56 x44 xa0)) O
(C x33 (Some (W x5a x0f x83 xf3 x90 x55 x44 xa0)) O
(C x34 (Some (W xdb x06 x83 xf3 x90 x50 x44 xa0)) O
(C x35 (Some (W x28 x05 x83 xf3 x90 x4f x44 xa0)) O
(C x36 (Some (W x41 x0a x83 xf3 x90 x52 x44 xa0)) O
(C x37 (Some (W x8e x08 x83 xf3 x90 x51 x44 xa0)) O
(C x38 (Some (W x0f x00 x83 xf3 x90 x4c x44 xa0)) O
(C x39 (Some (W x5c xfe x82 xf3 x90 x4b x44 xa0)) O
(C x5f None (C x30 None (C x30 (Some (W x86 x76 x9c xb7 x2a x0b x93 x01)) (C x5f None (C x30 None (C x30 (Some (W xb3 xc7 xb2 x84 xc0 xea x6e x1a)) O
(C x31 (Some (W x00 xc6 xb2 x84 xc0 xe9 x6e x1a)) O
(C x32 (Some (W x19 xcb xb2 x84 xc0 xec x6e x1a)) O
O)))
O)
O)
(C x31 (Some (W x39 x78 x9c xb7 x2a x0c x93 x01)) (C x5f None (C x30 None (C x30 (Some (W x42 x24 x32 x21 xc8 x34 x1b x72)) O
(C x31 (Some (W xf5 x25 x32 x21 xc8 x35 x1b x72)) O
(C x32 (Some (W xdc x20 x32 x21 xc8 x32 x1b x72)) O
O)))
O)
O)
(C x32 (Some (W x20 x73 x9c xb7 x2a x09 x93 x01)) (C x5f None (C x30 None (C x30 (Some (W x55 xa4 x3c x14 xb0 xb6 xb1 x43)) O
(C x31 (Some (W xa2 xa2 x3c x14 xb0 xb5 xb1 x43)) O
(C x32 (Some (W xef xa0 x3c x14 xb0 xb4 xb1 x43)) O
O)))
O)
O)
O)))
O)
O)))))))))))
(C x34 (Some (W x28 xb6 x63 x8e x65 x62 x75 x37)) (C x30 (Some (W xc8 x6a x6e xf3 x90 x4a x2c xa0)) O
(C x31 (Some (W x7b x6c x6e xf3 x90 x4b x2c xa0)) O
(C x32 (Some (W x2e x6e x6e xf3 x90 x4c x2c xa0)) O
(C x33 (Some (W xe1 x6f x6e xf3 x90 x4d x2c xa0)) O
(C x34 (Some (W x94 x71 x6e xf3 x90 x4e x2c xa0)) O
(C x35 (Some (W x47 x73 x6e xf3 x90 x4f x2c xa0)) O
(C x36 (Some (W xfa x74 x6e xf3 x90 x50 x2c xa0)) O
(C x37 (Some (W xad x76 x6e xf3 x90 x51 x2c xa0)) O
(C x38 (Some (W x30 x5d x6e xf3 x90 x42 x2c xa0)) O
(C x39 (Some (W xe3 x5e x6e xf3 x90 x43 x2c xa0)) O
(C x5f None (C x30 None (C x30 (Some (W x3d x0a x7b x8c xf0 x64 x7d xf7)) (C x5f None (C x30 None (C x30 (Some (W xb6 x14 x76 xd1 x3f x2d x7c x9b)) O
(C x31 (Some (W x69 x16 x76 xd1 x3f x2e x7c x9b)) O
(C x32 (Some (W x50 x11 x76 xd1 x3f x2b x7c x9b)) O
O)))
O)
O)
(C x31 (Some (W x8a x08 x7b x8c xf0 x63 x7d xf7)) (C x5f None (C x30 None (C x30 (Some (W x87 xee xf6 x34 x38 x03 xd0 x43)) O
(C x31 (Some (W xd4 xec xf6 x34 x38 x02 xd0 x43)) O
(C x32 (Some (W xed xf1 xf6 x34 x38 x05 xd0 x43)) O
O)))
O)
O)
(C x32 (Some (W xd7 x06 x7b x8c xf0 x62 x7d xf7)) (C x5f None (C x30 None (C x30 (Some (W xd8 x2d x8e xeb x2c xf9 x4d x6e)) O
(C x31 (Some (W x8b x2f x8e xeb x2c xfa x4d x6e)) O
(C x32 (Some (W x3e x31 x8e xeb x2c xfb x4d x6e)) O
O)))
O)
O)
O)))
O)
O)))))))))))
(C x35 (Some (W xdb xb7 x63 x8e x65 x63 x75 x37)) (C x5f None (C x30 None (C x30 (Some (W x4c xd3 x56 xb5 xf5 x8e xd8 xfa)) (C x5f None (C x30 None (C x30 (Some (W x91 x8a x1b x09 xb1 x95 xa3 xea)) O
(C x31 (Some (W xde x88 x1b x09 xb1 x94 xa3 xea)) O
(C x32 (Some (W x2b x87 x1b x09 xb1 x93 xa3 xea)) O
O)))
O)
O)
(C x31 (Some (W xff xd4 x56 xb5 xf5 x8f xd8 xfa)) (C x5f None (C x30 None (C x30 (Some (W xc0 x42 x28 xa4 xb8 x3f x9c x40)) O
(C x31 (Some (W x73 x44 x28 xa4 xb8 x40 x9c x40)) O
(C x32 (Some (W x26 x46 x28 xa4 xb8 x41 x9c x40)) O
O)))
O)
O)
(C x32 (Some (W xb2 xd6 x56 xb5 xf5 x90 xd8 xfa)) (C x5f None (C x30 None (C x30 (Some (W x6f x03 x91 xed xc3 x49 x1e x16)) O
(C x31 (Some (W xbc x01 x91 xed xc3 x48 x1e x16)) O
(C x32 (Some (W xd5 x06 x91 xed xc3 x4b x1e x16)) O
O)))
O)
O)
O)))
O)
O)
(C x36 (Some (W x8e xb9 x63 x8e x65 x64 x75 x37)) (C x5f None (C x30 None (C x30 (Some (W x9b x9b x63 xfe x00 x19 xee xcf)) (C x5f None (C x30 None (C x30 (Some (W x0c xca x7b x5f x61 xe6 x96 x85)) O
(C x31 (Some (W xbf xcb x7b x5f x61 xe7 x96 x85)) O
(C x32 (Some (W x72 xcd x7b x5f x61 xe8 x96 x85)) O
O)))
O)
O)
(C x31 (Some (W xe8 x99 x63 xfe x00 x18 xee xcf)) (C x5f None (C x30 None (C x30 (Some (W xfd x55 xa1 x4e x57 xbc xc0 xd8)) O
(C x31 (Some (W x4a x54 xa1 x4e x57 xbb xc0 xd8)) O
(C x32 (Some (W x97 x52 xa1 x4e x57 xba xc0 xd8)) O
O)))
O)
O)
(C x32 (Some (W x01 x9f x63 xfe x00 x1b xee xcf)) (C x5f None (C x30 None (C x30 (Some (W x8a xce xf1 x09 x73 xfa xb2 x86)) O
(C x31 (Some (W x3d xd0 xf1 x09 x73 xfb xb2 x86)) O
(C x32 (Some (W x24 xcb xf1 x09 x73 xf8 xb2 x86)) O
O)))
O)
O)
O)))
O)
O)
(C x37 (Some (W x41 xbb x63 x8e x65 x65 x75 x37)) (C x5f None (C x30 None (C x30 (Some (W xca xd7 xcc x5f x07 xa3 xf4 xfb)) (C x5f None (C x30 None (C x30 (Some (W xc7 x88 xfe x16 x2f x03 x0c xa4)) O
(C x31 (Some (W x14 x87 xfe x16 x2f x02 x0c xa4)) O
(C x32 (Some (W x2d x8c xfe x16 x2f x05 x0c xa4)) O
O)))
O)
O)
(C x31 (Some (W x7d xd9 xcc x5f x07 xa4 xf4 xfb)) (C x5f None (C x30 None (C x30 (Some (W xf6 xae x7d xb3 x36 x2d xb8 xfb)) O
(C x31 (Some (W xa9 xb0 x7d xb3 x36 x2e xb8 xfb)) O
(C x32 (Some (W x90 xab x7d xb3 x36 x2b xb8 xfb)) O
O)))
O)
O)
(C x32 (Some (W x64 xd4 xcc x5f x07 xa1 xf4 xfb)) (C x5f None (C x30 None (C x30 (Some (W xa9 x36 x2c xa6 x1e x2f xe2 xcc)) O
(C x31 (Some (W xf6 x34 x2c xa6 x1e x2e xe2 xcc)) O
(C x32 (Some (W x43 x33 x2c xa6 x1e x2d xe2 xcc)) O
O)))
O)
O)
O)))
O)
O)
(C x38 (Some (W x5c xaf x63 x8e x65 x5e x75 x37)) (C x5f None (C x30 None (C x30 (Some (W x61 xf8 x1d xfc xcb x9c x33 xc9)) (C x5f None (C x30 None (C x30 (Some (W x2a xa3 x72 x1c x53 x51 x77 x7e)) O
(C x31 (Some (W xdd xa4 x72 x1c x53 x52 x77 x7e)) O
(C x32 (Some (W xc4 x9f x72 x1c x53 x4f x77 x7e)) O
O)))
O)
O)
(C x31 (Some (W xae xf6 x1d xfc xcb x9b x33 xc9)) (C x5f None (C x30 None (C x30 (Some (W x7b x8d x08 xbb x4c x47 x70 x52)) O
(C x31 (Some (W xc8 x8b x08 xbb x4c x46 x70 x52)) O
(C x32 (Some (W xe1 x90 x08 xbb x4c x49 x70 x52)) O
O)))
O)
O)
(C x32 (Some (W xfb xf4 x1d xfc xcb x9a x33 xc9)) (C x5f None (C x30 None (C x30 (Some (W x2c x0a x8b x70 x41 x3d xa8 x7b)) O
(C x31 (Some (W xdf x0b x8b x70 x41 x3e xa8 x7b)) O
(C x32 (Some (W x92 x0d x8b x70 x41 x3f xa8 x7b)) O
O)))
O)
O)
O)))
O)
O)
(C x39 (Some (W x0f xb1 x63 x8e x65 x5f x75 x37)) (C x5f None (C x30 None (C x30 (Some (W x50 x8a x2a x45 xd7 x06 x49 x9e)) (C x5f None (C x30 None (C x30 (Some (W x85 x9d x63 x37 xf6 x60 x7e xc4)) O
(C x31 (Some (W xd2 x9b x63 x37 xf6 x5f x7e xc4)) O
(C x32 (Some (W x1f x9a x63 x37 xf6 x5e x7e xc4)) O
O)))
O)
O)
(C x31 (Some (W x03 x8c x2a x45 xd7 x07 x49 x9e)) (C x5f None (C x30 None (C x30 (Some (W xd4 x20 xe1 x81 x01 x6b x46 x9b)) O
(C x31 (Some (W x87 x22 xe1 x81 x01 x6c x46 x9b)) O
(C x32 (Some (W x3a x24 xe1 x81 x01 x6d x46 x9b)) O
O)))
O)
O)
(C x32 (Some (W xb6 x8d x2a x45 xd7 x08 x49 x9e)) (C x5f None (C x30 None (C x30 (Some (W xe3 xaa x4a x1d x09 x15 xac xf1)) O
(C x31 (Some (W x30 xa9 x4a x1d x09 x14 xac xf1)) O
(C x32 (Some (W x49 xae x4a x1d x09 x17 xac xf1)) O
O)))
O)
O)
O)))
O)
O)
O))))))))))
(C x32 None (C x30 (Some (W xaf xf9 x6b x8e x65 x58 x7f x37)) (C x5f None (C x30 None (C x30 (Some (W xb0 x2a xda x8b x7b xa2 x5e x26)) (C x5f None (C x30 None (C x30 (Some (W xa5 xb0 x2a x5b xd1 xbc xb5 xb4)) O
(C x31 (Some (W xf2 xae x2a x5b xd1 xbb xb5 xb4)) O
(C x32 (Some (W x3f xad x2a x5b xd1 xba xb5 xb4)) O
O)))
O)
O)
(C x31 (Some (W x63 x2c xda x8b x7b xa3 x5e x26)) (C x5f None (C x30 None (C x30 (Some (W xf4 xcd x38 xbc xd7 x46 x50 xe0)) O
(C x31 (Some (W xa7 xcf x38 xbc xd7 x47 x50 xe0)) O
(C x32 (Some (W x5a xd1 x38 xbc xd7 x48 x50 xe0)) O
O)))
O)
O)
(C x32 (Some (W x16 x2e xda x8b x7b xa4 x5e x26)) (C x5f None (C x30 None (C x30 (Some (W x03 x42 x13 xcd xe1 x70 x26 x8d)) O
(C x31 (Some (W x50 x40 x13 xcd xe1 x6f x26 x8d)) O
(C x32 (Some (W x69 x45 x13 xcd xe1 x72 x26 x8d)) O
O)))
O)
O)
O)))
O)
O)
(C x31 (Some (W xfc xf7 x6b x8e x65 x57 x7f x37)) (C x5f None (C x30 None (C x30 (Some (W xc1 xdd x5c x41 x70 xb8 x96 x4f)) (C x5f None (C x30 None (C x30 (Some (W x4a xe3 xf1 x3d x18 x9c x22 xbe)) O
(C x31 (Some (W xfd xe4 xf1 x3d x18 x9d x22 xbe)) O
(C x32 (Some (W xe4 xdf xf1 x3d x18 x9a x22 xbe)) O
O)))
O)
O)
(C x31 (Some (W x0e xdc x5c x41 x70 xb7 x96 x4f)) (C x5f None (C x30 None (C x30 (Some (W x1b xa7 x88 xdc x11 x12 x1c x92)) O
(C x31 (Some (W x68 xa5 x88 xdc x11 x11 x1c x92)) O
(C x32 (Some (W x81 xaa x88 xdc x11 x14 x1c x92)) O
O)))
O)
O)
(C x32 (Some (W x5b xda x5c x41 x70 xb6 x96 x4f)) (C x5f None (C x30 None (C x30 (Some (W xcc xde x7b x93 x06 x88 x06 xbd)) O
(C x31 (Some (W x7f xe0 x7b x93 x06 x89 x06 xbd)) O
(C x32 (Some (W x32 xe2 x7b x93 x06 x8a x06 xbd)) O
O)))
O)
O)
O)))
O)
O)
(C x32 (Some (W x15 xfd x6b x8e x65 x5a x7f x37)) (C x5f None (C x30 None (C x30 (Some (W x4e x56 xad xfc x8b xf6 x88 xfd)) (C x5f None (C x30 None (C x30 (Some (W x5b x7a x56 xb0 xf6 x44 xbc x88)) O
(C x31 (Some (W xa8 x78 x56 xb0 xf6 x43 xbc x88)) O
(C x32 (Some (W xc1 x7d x56 xb0 xf6 x46 xbc x88)) O
O)))
O)
O)
(C x31 (Some (W x01 x58 xad xfc x8b xf7 x88 xfd)) (C x5f None (C x30 None (C x30 (Some (W x8a x61 xbe xf9 x01 xcf x3d x5e)) O
(C x31 (Some (W x3d x63 xbe xf9 x01 xd0 x3d x5e)) O
(C x32 (Some (W x24 x5e xbe xf9 x01 xcd x3d x5e)) O
O)))
O)
O)
(C x32 (Some (W xe8 x52 xad xfc x8b xf4 x88 xfd)) (C x5f None (C x30 None (C x30 (Some (W xfd xe8 x6d x3e xe6 x90 x4b xb0)) O
(C x31 (Some (W x4a xe7 x6d x3e xe6 x8f x4b xb0)) O
(C x32 (Some (W x97 xe5 x6d x3e xe6 x8e x4b xb0)) O
O)))
O)
O)
O)))
O)
O)
(C x33 (Some (W x62 xfb x6b x8e x65 x59 x7f x37)) (C x5f None (C x30 None (C x30 (Some (W x5f x40 x44 xed x81 xac x65 x52)) (C x5f None (C x30 None (C x30 (Some (W xe0 x72 xa1 xf4 xc8 x7d x68 xa7)) O
(C x31 (Some (W x93 x74 xa1 xf4 xc8 x7e x68 xa7)) O
(C x32 (Some (W x46 x76 xa1 xf4 xc8 x7f x68 xa7)) O
O)))
O)
O)
(C x31 (Some (W xac x3e x44 xed x81 xab x65 x52)) (C x5f None (C x30 None (C x30 (Some (W x31 xa2 x21 xcc xc3 xd3 x79 xa4)) O
(C x31 (Some (W x7e xa0 x21 xcc xc3 xd2 x79 xa4)) O
(C x32 (Some (W xcb x9e x21 xcc xc3 xd1 x79 xa4)) O
O)))
O)
O)
(C x32 (Some (W xc5 x43 x44 xed x81 xae x65 x52)) (C x5f None (C x30 None (C x30 (Some (W xbe x6f x73 x9f xda x11 xf1 xa8)) O
(C x31 (Some (W x71 x71 x73 x9f xda x12 xf1 xa8)) O
(C x32 (Some (W x58 x6c x73 x9f xda x0f xf1 xa8)) O
O)))
O)
O)
O)))
O)
O)
(C x34 (Some (W xe3 xf2 x6b x8e x65 x54 x7f x37)) (C x5f None (C x30 None (C x30 (Some (W x74 x65 x0b x34 x58 xba xc0 x20)) (C x5f None (C x30 None (C x30 (Some (W x79 x8b xf8 x07 x6b x39 x3c x3b)) O
(C x31 (Some (W xc6 x89 xf8 x07 x6b x38 x3c x3b)) O
(C x32 (Some (W x13 x88 xf8 x07 x6b x37 x3c x3b)) O
O)))
O)
O)
(C x31 (Some (W x27 x67 x0b x34 x58 xbb xc0 x20)) (C x5f None (C x30 None (C x30 (Some (W x28 x4c x61 x51 x76 x43 xbe x10)) O
(C x31 (Some (W xdb x4d x61 x51 x76 x44 xbe x10)) O
(C x32 (Some (W x8e x4f x61 x51 x76 x45 xbe x10)) O
O)))
O)
O)
(C x32 (Some (W xda x68 x0b x34 x58 xbc xc0 x20)) (C x5f None (C x30 None (C x30 (Some (W x97 xdd xca x78 x7b x0d x66 x12)) O
(C x31 (Some (W xe4 xdb xca x78 x7b x0c x66 x12)) O
(C x32 (Some (W xfd xe0 xca x78 x7b x0f x66 x12)) O
O)))
O)
O)
O)))
O)
O)
(C x35 (Some (W x30 xf1 x6b x8e x65 x53 x7f x37)) (C x5f None (C x30 None (C x30 (Some (W x25 x48 xfd xd2 x51 x30 x26 xf5)) (C x5f None (C x30 None (C x30 (Some (W x5e x28 xb9 x8b xad x9b x94 xe0)) O
(C x31 (Some (W x11 x2a xb9 x8b xad x9c x94 xe0)) O
(C x32 (Some (W xf8 x24 xb9 x8b xad x99 x94 xe0)) O
O)))
O)
O)
(C x31 (Some (W x72 x46 xfd xd2 x51 x2f x26 xf5)) (C x5f None (C x30 None (C x30 (Some (W x2f xd3 xde x40 xa2 x91 x5f x09)) O
(C x31 (Some (W x7c xd1 xde x40 xa2 x90 x5f x09)) O
(C x32 (Some (W x95 xd6 xde x40 xa2 x93 x5f x09)) O
O)))
O)
O)
(C x32 (Some (W xbf x44 xfd xd2 x51 x2e x26 xf5)) (C x5f None (C x30 None (C x30 (Some (W x80 xbd x74 xdf x9b x87 x58 xdd)) O
(C x31 (Some (W x33 xbf x74 xdf x9b x88 x58 xdd)) O
(C x32 (Some (W xe6 xc0 x74 xdf x9b x89 x58 xdd)) O
O)))
O)
O)
O)))
O)
O)
(C x36 (Some (W x49 xf6 x6b x8e x65 x56 x7f x37)) (C x5f None (C x30 None (C x30 (Some (W x52 x1d xf3 xa5 x68 xee x30 xf9)) (C x5f None (C x30 None (C x30 (Some (W xcf xd1 x20 x7b x61 x6e x01 x28)) O
(C x31 (Some (W x1c xd0 x20 x7b x61 x6d x01 x28)) O
(C x32 (Some (W x35 xd5 x20 x7b x61 x70 x01 x28)) O
O)))
O)
O)
(C x31 (Some (W x05 x1f xf3 xa5 x68 xef x30 xf9)) (C x5f None (C x30 None (C x30 (Some (W xfe xb8 x88 xc4 x6c xf8 x82 xfd)) O
(C x31 (Some (W xb1 xba x88 xc4 x6c xf9 x82 xfd)) O
(C x32 (Some (W x98 xb5 x88 xc4 x6c xf6 x82 xfd)) O
O)))
O)
O)
(C x32 (Some (W xec x19 xf3 xa5 x68 xec x30 xf9)) (C x5f None (C x30 None (C x30 (Some (W x71 x40 x38 x09 x51 xba x90 x4f)) O
(C x31 (Some (W xbe x3e x38 x09 x51 xb9 x90 x4f)) O
(C x32 (Some (W x0b x3d x38 x09 x51 xb8 x90 x4f)) O
O)))
O)
O)
O)))
O)
O)
(C x37 (Some (W x96 xf4 x6b x8e x65 x55 x7f x37)) (C x5f None (C x30 None (C x30 (Some (W x83 xd9 xe5 x44 x62 xe4 x96 xcd)) (C x5f None (C x30 None (C x30 (Some (W x54 xe5 x62 x19 xcf xd4 x42 xca)) O
(C x31 (Some (W x07 xe7 x62 x19 xcf xd5 x42 xca)) O
(C x32 (Some (W xba xe8 x62 x19 xcf xd6 x42 xca)) O
O)))
O)
O)
(C x31 (Some (W xd0 xd7 xe5 x44 x62 xe3 x96 xcd)) (C x5f None (C x30 None (C x30 (Some (W x05 x62 xe5 xce xc3 xca x7a xf3)) O
(C x31 (Some (W x52 x60 xe5 xce xc3 xc9 x7a xf3)) O
(C x32 (Some (W x9f x5e xe5 xce xc3 xc8 x7a xf3)) O
O)))
O)
O)
(C x32 (Some (W xe9 xdc xe5 x44 x62 xe6 x96 xcd)) (C x5f None (C x30 None (C x30 (Some (W xb2 x47 x4b x17 xdd x88 xf5 x4d)) O
(C x31 (Some (W x65 x49 x4b x17 xdd x89 xf5 x4d)) O
(C x32 (Some (W x4c x44 x4b x17 xdd x86 xf5 x4d)) O
O)))
O)
O)
O)))
O)
O)
(C x38 (Some (W x47 x07 x6c x8e x65 x60 x7f x37)) (C x5f None (C x30 None (C x30 (Some (W x88 x09 x65 x18 xbc xf2 x7a x5c)) (C x5f None (C x30 None (C x30 (Some (W x5d x32 x70 xc8 x2b x18 xf2 x7d)) O
(C x31 (Some (W xaa x30 x70 xc8 x2b x17 xf2 x7d)) O
(C x32 (Some (W xf7 x2e x70 xc8 x2b x16 xf2 x7d)) O
O)))
O)
O)
(C x31 (Some (W x3b x0b x65 x18 xbc xf3 x7a x5c)) (C x5f None (C x30 None (C x30 (Some (W x6c xbc xd9 x63 x33 xc2 x57 xd4)) O
(C x31 (Some (W x1f xbe xd9 x63 x33 xc3 x57 xd4)) O
(C x32 (Some (W xd2 xbf xd9 x63 x33 xc4 x57 xd4)) O
O)))
O)
O)
(C x32 (Some (W xee x0c x65 x18 xbc xf4 x7a x5c)) (C x5f None (C x30 None (C x30 (Some (W xbb x94 x58 xc6 x39 xcc xa4 x01)) O
(C x31 (Some (W x08 x93 x58 xc6 x39 xcb xa4 x01)) O
(C x32 (Some (W x21 x98 x58 xc6 x39 xce xa4 x01)) O
O)))
O)
O)
O)))
O)
O)
(C x39 (Some (W x94 x05 x6c x8e x65 x5f x7f x37)) (C x5f None (C x30 None (C x30 (Some (W x59 x5f x89 xb5 xb5 xe8 xc0 x2e)) (C x5f None (C x30 None (C x30 (Some (W x22 xba xe9 x64 xef x61 x87 x5f)) O
(C x31 (Some (W xd5 xbb xe9 x64 xef x62 x87 x5f)) O
(C x32 (Some (W xbc xb6 xe9 x64 xef x5f x87 x5f)) O
O)))
O)
O)
(C x31 (Some (W xa6 x5d x89 xb5 xb5 xe7 xc0 x2e)) (C x5f None (C x30 None (C x30 (Some (W x13 x21 xdc x3d xea x17 x4c x5e)) O
(C x31 (Some (W x60 x1f xdc x3d xea x16 x4c x5e)) O
(C x32 (Some (W x79 x24 xdc x3d xea x19 x4c x5e)) O
O)))
O)
O)
(C x32 (Some (W xf3 x5b x89 xb5 xb5 xe6 xc0 x2e)) (C x5f None (C x30 None (C x30 (Some (W xc4 x96 x73 xf4 xde x2d xca x88)) O
(C x31 (Some (W x77 x98 x73 xf4 xde x2e xca x88)) O
(C x32 (Some (W x2a x9a x73 xf4 xde x2f xca x88)) O
O)))
O)
O)
O)))
O)
O)
O))))))))))
(C x33 None (C x30 (Some (W x26 xe0 x68 x8e x65 xd2 x7b x37)) (C x5f None (C x30 None (C x30 (Some (W x93 x4c x23 xa0 x46 x04 x45 xb6)) (C x5f None (C x30 None (C x30 (Some (W x24 x30 xac x79 x1d x6f xee x38)) O
(C x31 (Some (W xd7 x31 xac x79 x1d x70 xee x38)) O
(C x32 (Some (W x8a x33 xac x79 x1d x71 xee x38)) O
O)))
O)
O)
(C x31 (Some (W xe0 x4a x23 xa0 x46 x03 x45 xb6)) (C x5f None (C x30 None (C x30 (Some (W x15 xec x9f x6a x13 x25 x38 x8e)) O
(C x31 (Some (W x62 xea x9f x6a x13 x24 x38 x8e)) O
(C x32 (Some (W xaf xe8 x9f x6a x13 x23 x38 x8e)) O
O)))
O)
O)
(C x32 (Some (W xf9 x4f x23 xa0 x46 x06 x45 xb6)) (C x5f None (C x30 None (C x30 (Some (W x02 x6c x95 x77 x2b xa3 xa1 xbc)) O
(C x31 (Some (W xb5 x6d x95 x77 x2b xa4 xa1 xbc)) O
(C x32 (Some (W x9c x68 x95 x77 x2b xa1 xa1 xbc)) O
O)))
O)
O)
O)))
O)
O)
(C x31 (Some (W xd9 xe1 x68 x8e x65 xd3 x7b x37)) (C x5f None (C x30 None (C x30 (Some (W xa2 xe5 x30 xc7 x4b x4e x80 xb7)) (C x5f None (C x30 None (C x30 (Some (W x9f x8e xf7 x0c xf8 x3b x30 xf0)) O
(C x31 (Some (W xec x8c xf7 x0c xf8 x3a x30 xf0)) O
(C x32 (Some (W x05 x92 xf7 x0c xf8 x3d x30 xf0)) O
O)))
O)
O)
(C x31 (Some (W x55 xe7 x30 xc7 x4b x4f x80 xb7)) (C x5f None (C x30 None (C x30 (Some (W x8e xf9 x61 x34 xfd x85 xd8 xf1)) O
(C x31 (Some (W x41 xfb x61 x34 xfd x86 xd8 xf1)) O
(C x32 (Some (W x28 xf6 x61 x34 xfd x83 xd8 xf1)) O
O)))
O)
O)
(C x32 (Some (W x3c xe2 x30 xc7 x4b x4c x80 xb7)) (C x5f None (C x30 None (C x30 (Some (W x01 x2c x10 x61 xe6 x47 x61 xed)) O
(C x31 (Some (W x4e x2a x10 x61 xe6 x46 x61 xed)) O
(C x32 (Some (W x9b x28 x10 x61 xe6 x45 x61 xed)) O
O)))
O)
O)
O)))
O)
O)
(C x32 (Some (W xc0 xdc x68 x8e x65 xd0 x7b x37)) (C x5f None (C x30 None (C x30 (Some (W x35 x3f x3c xba x33 x50 x17 x89)) (C x5f None (C x30 None (C x30 (Some (W x2e x9f xfd x0d xb0 x20 x64 x01)) O
(C x31 (Some (W xe1 xa0 xfd x0d xb0 x21 x64 x01)) O
(C x32 (Some (W xc8 x9b xfd x0d xb0 x1e x64 x01)) O
O)))
O)
O)
(C x31 (Some (W x82 x3d x3c xba x33 x4f x17 x89)) (C x5f None (C x30 None (C x30 (Some (W xbf xde x93 x72 xa8 x56 xfe xaa)) O
(C x31 (Some (W x0c xdd x93 x72 xa8 x55 xfe xaa)) O
(C x32 (Some (W x25 xe2 x93 x72 xa8 x58 xfe xaa)) O
O)))
O)
O)
(C x32 (Some (W xcf x3b x3c xba x33 x4e x17 x89)) (C x5f None (C x30 None (C x30 (Some (W x10 x63 xba x27 x9d xcc xc9 xd3)) O
(C x31 (Some (W xc3 x64 xba x27 x9d xcd xc9 xd3)) O
(C x32 (Some (W x76 x66 xba x27 x9d xce xc9 xd3)) O
O)))
O)
O)
O)))
O)
O)
(C x33 (Some (W x73 xde x68 x8e x65 xd1 x7b x37)) (C x5f None (C x30 None (C x30 (Some (W x44 xc2 xba x56 x3b x1a xc3 xe0)) (C x5f None (C x30 None (C x30 (Some (W x49 x24 x85 xcd x3d x1c x1f x06)) O
(C x31 (Some (W x96 x22 x85 xcd x3d x1b x1f x06)) O
(C x32 (Some (W xe3 x20 x85 xcd x3d x1a x1f x06)) O
O)))
O)
O)
(C x31 (Some (W xf7 xc3 xba x56 x3b x1b xc3 xe0)) (C x5f None (C x30 None (C x30 (Some (W xb8 xe4 xee x68 x45 xe6 x84 x5c)) O
(C x31 (Some (W x6b xe6 xee x68 x45 xe7 x84 x5c)) O
(C x32 (Some (W x1e xe8 xee x68 x45 xe8 x84 x5c)) O
O)))
O)
O)
(C x32 (Some (W xaa xc5 xba x56 x3b x1c xc3 xe0)) (C x5f None (C x30 None (C x30 (Some (W xe7 x39 xc9 xb3 x50 xf0 xb9 x33)) O
(C x31 (Some (W x34 x38 xc9 xb3 x50 xef xb9 x33)) O
(C x32 (Some (W x4d x3d xc9 xb3 x50 xf2 xb9 x33)) O
O)))
O)
O)
O)))
O)
O)
(C x34 (Some (W xf2 xe6 x68 x8e x65 xd6 x7b x37)) (C x5f None (C x30 None (C x30 (Some (W xaf x08 x82 x0e x65 x0c xb5 x10)) (C x5f None (C x30 None (C x30 (Some (W xb0 x2f x78 x86 x5f x4b x97 x6f)) O
(C x31 (Some (W x63 x31 x78 x86 x5f x4c x97 x6f)) O
(C x32 (Some (W x16 x33 x78 x86 x5f x4d x97 x6f)) O
O)))
O)
O)
(C x31 (Some (W xfc x06 x82 x0e x65 x0b xb5 x10)) (C x5f None (C x30 None (C x30 (Some (W xc1 xe2 xfa x3b x54 x61 xcf x98)) O
(C x31 (Some (W x0e xe1 xfa x3b x54 x60 xcf x98)) O
(C x32 (Some (W x5b xdf xfa x3b x54 x5f xcf x98)) O
O)))
O)
O)
(C x32 (Some (W x15 x0c x82 x0e x65 x0e xb5 x10)) (C x5f None (C x30 None (C x30 (Some (W x4e x5b x4b xf7 x6f x9f xc1 x46)) O
(C x31 (Some (W x01 x5d x4b xf7 x6f xa0 xc1 x46)) O
(C x32 (Some (W xe8 x57 x4b xf7 x6f x9d xc1 x46)) O
O)))
O)
O)
O)))
O)
O)
(C x35 (Some (W xa5 xe8 x68 x8e x65 xd7 x7b x37)) (C x5f None (C x30 None (C x30 (Some (W xde x5d x5c x59 x70 x16 xea xe7)) (C x5f None (C x30 None (C x30 (Some (W xab xf6 x54 xb8 x83 x74 xd9 x4e)) O
(C x31 (Some (W xf8 xf4 x54 xb8 x83 x73 xd9 x4e)) O
(C x32 (Some (W x11 xfa x54 xb8 x83 x76 xd9 x4e)) O
O)))
O)
O)
(C x31 (Some (W x91 x5f x5c x59 x70 x17 xea xe7)) (C x5f None (C x30 None (C x30 (Some (W xda x4b x2f x03 x8f x7e x0e x26)) O
(C x31 (Some (W x8d x4d x2f x03 x8f x7f x0e x26)) O
(C x32 (Some (W x74 x48 x2f x03 x8f x7c x0e x26)) O
O)))
O)
O)
(C x32 (Some (W x78 x5a x5c x59 x70 x14 xea xe7)) (C x5f None (C x30 None (C x30 (Some (W x4d xd3 xde x47 x73 x40 x1c x78)) O
(C x31 (Some (W x9a xd1 xde x47 x73 x3f x1c x78)) O
(C x32 (Some (W xe7 xcf xde x47 x73 x3e x1c x78)) O
O)))
O)
O)
O)))
O)
O)
(C x36 (Some (W x8c xe3 x68 x8e x65 xd4 x7b x37)) (C x5f None (C x30 None (C x30 (Some (W xd1 x3a x0b x12 x57 x58 xb5 x8e)) (C x5f None (C x30 None (C x30 (Some (W x1a xea x45 x40 x1c x65 x25 xd1)) O
(C x31 (Some (W xcd xeb x45 x40 x1c x66 x25 xd1)) O
(C x32 (Some (W xb4 xe6 x45 x40 x1c x63 x25 xd1)) O
O)))
O)
O)
(C x31 (Some (W x1e x39 x0b x12 x57 x57 xb5 x8e)) (C x5f None (C x30 None (C x30 (Some (W xeb x3f x6a xdd x15 x5b x6b xa3)) O
(C x31 (Some (W x38 x3e x6a xdd x15 x5a x6b xa3)) O
(C x32 (Some (W x51 x43 x6a xdd x15 x5d x6b xa3)) O
O)))
O)
O)
(C x32 (Some (W x6b x37 x0b x12 x57 x56 xb5 x8e)) (C x5f None (C x30 None (C x30 (Some (W xdc xfb x5d xce x0b x11 xb5 xf8)) O
(C x31 (Some (W x8f xfd x5d xce x0b x12 xb5 xf8)) O
(C x32 (Some (W x42 xff x5d xce x0b x13 xb5 xf8)) O
O)))
O)
O)
O)))
O)
O)
(C x37 (Some (W x3f xe5 x68 x8e x65 xd5 x7b x37)) (C x5f None (C x30 None (C x30 (Some (W x00 xf3 x17 xad x5e x02 xae xe4)) (C x5f None (C x30 None (C x30 (Some (W x75 xf1 x02 x79 x65 x8a x27 x28)) O
(C x31 (Some (W xc2 xef x02 x79 x65 x89 x27 x28)) O
(C x32 (Some (W x0f xee x02 x79 x65 x88 x27 x28)) O
O)))
O)
O)
(C x31 (Some (W xb3 xf4 x17 xad x5e x03 xae xe4)) (C x5f None (C x30 None (C x30 (Some (W x84 x74 x81 x15 x6d x54 xd3 x7f)) O
(C x31 (Some (W x37 x76 x81 x15 x6d x55 xd3 x7f)) O
(C x32 (Some (W xea x77 x81 x15 x6d x56 xd3 x7f)) O
O)))
O)
O)
(C x32 (Some (W x66 xf6 x17 xad x5e x04 xae xe4)) (C x5f None (C x30 None (C x30 (Some (W xd3 x53 xeb x76 x73 x3e xda xab)) O
(C x31 (Some (W x20 x52 xeb x76 x73 x3d xda xab)) O
(C x32 (Some (W x39 x57 xeb x76 x73 x40 xda xab)) O
O)))
O)
O)
O)))
O)
O)
(C x38 (Some (W xbe xed x68 x8e x65 xda x7b x37)) (C x5f None (C x30 None (C x30 (Some (W x4b x04 x51 x66 x88 x14 x53 x16)) (C x5f None (C x30 None (C x30 (Some (W x7c xde xaa xb7 xcb x0f x12 x3e)) O
(C x31 (Some (W x2f xe0 xaa xb7 xcb x10 x12 x3e)) O
(C x32 (Some (W xe2 xe1 xaa xb7 xcb x11 x12 x3e)) O
O)))
O)
O)
(C x31 (Some (W x98 x02 x51 x66 x88 x13 x53 x16)) (C x5f None (C x30 None (C x30 (Some (W x2d xff x40 x56 xc5 x25 x0b x12)) O
(C x31 (Some (W x7a xfd x40 x56 xc5 x24 x0b x12)) O
(C x32 (Some (W xc7 xfb x40 x56 xc5 x23 x0b x12)) O
O)))
O)
O)
(C x32 (Some (W xb1 x07 x51 x66 x88 x16 x53 x16)) (C x5f None (C x30 None (C x30 (Some (W x3a x22 x92 x9d xde xe3 x3f x6b)) O
(C x31 (Some (W xed x23 x92 x9d xde xe4 x3f x6b)) O
(C x32 (Some (W xd4 x1e x92 x9d xde xe1 x3f x6b)) O
O)))
O)
O)
O)))
O)
O)
(C x39 (Some (W x71 xef x68 x8e x65 xdb x7b x37)) (C x5f None (C x30 None (C x30 (Some (W xfa x19 xbb xc7 x8e x1e x5a x42)) (C x5f None (C x30 None (C x30 (Some (W xf7 x24 x7d xc5 xc5 xf0 xee x85)) O
(C x31 (Some (W x44 x23 x7d xc5 xc5 xef xee x85)) O
(C x32 (Some (W x5d x28 x7d xc5 xc5 xf2 xee x85)) O
O)))
O)
O)
(C x31 (Some (W xad x1b xbb xc7 x8e x1f x5a x42)) (C x5f None (C x30 None (C x30 (Some (W x66 xdd x88 x0e xd1 xda x03 x5b)) O
(C x31 (Some (W x19 xdf x88 x0e xd1 xdb x03 x5b)) O
(C x32 (Some (W x00 xda x88 x0e xd1 xd8 x03 x5b)) O
O)))
O)
O)
(C x32 (Some (W x94 x16 xbb xc7 x8e x1c x5a x42)) (C x5f None (C x30 None (C x30 (Some (W x59 xba x37 xc7 xb7 x1c xcf x01)) O
(C x31 (Some (W xa6 xb8 x37 xc7 xb7 x1b xcf x01)) O
(C x32 (Some (W xf3 xb6 x37 xc7 xb7 x1a xcf x01)) O
O)))
O)
O)
O)))
O)
O)
O))))))))))
(C x34 None (C x30 (Some (W x59 x70 x5a x8e x65 xd4 x6a x37)) (C x5f None (C x30 None (C x30 (Some (W x22 x15 x6e xfe x6e x32 x1b xd8)) (C x5f None (C x30 None (C x30 (Some (W x1f x49 x77 x84 x40 xdd xf7 x8f)) O
(C x31 (Some (W x6c x47 x77 x84 x40 xdc xf7 x8f)) O
(C x32 (Some (W x85 x4c x77 x84 x40 xdf xf7 x8f)) O
O)))
O)
O)
(C x31 (Some (W xd5 x16 x6e xfe x6e x33 x1b xd8)) (C x5f None (C x30 None (C x30 (Some (W x0e xb4 xe1 xab x45 x27 xa0 x91)) O
(C x31 (Some (W xc1 xb5 xe1 xab x45 x28 xa0 x91)) O
(C x32 (Some (W xa8 xb0 xe1 xab x45 x25 xa0 x91)) O
O)))
O)
O)
(C x32 (Some (W xbc x11 x6e xfe x6e x30 x1b xd8)) (C x5f None (C x30 None (C x30 (Some (W x81 xe6 x8f xd8 x2e xe9 x28 x8d)) O
(C x31 (Some (W xce xe4 x8f xd8 x2e xe8 x28 x8d)) O
(C x32 (Some (W x1b xe3 x8f xd8 x2e xe7 x28 x8d)) O
O)))
O)
O)
O)))
O)
O)
(C x31 (Some (W xa6 x6e x5a x8e x65 xd3 x6a x37)) (C x5f None (C x30 None (C x30 (Some (W x13 x7c x60 xd7 x69 xe8 xdf xd6)) (C x5f None (C x30 None (C x30 (Some (W xa4 xea x2b xf1 x65 x10 xb6 xd8)) O
(C x31 (Some (W x57 xec x2b xf1 x65 x11 xb6 xd8)) O
(C x32 (Some (W x0a xee x2b xf1 x65 x12 xb6 xd8)) O
O)))
O)
O)
(C x31 (Some (W x60 x7a x60 xd7 x69 xe7 xdf xd6)) (C x5f None (C x30 None (C x30 (Some (W x95 xa6 x1f xe2 x5b xc6 xff x2d)) O
(C x31 (Some (W xe2 xa4 x1f xe2 x5b xc5 xff x2d)) O
(C x32 (Some (W x2f xa3 x1f xe2 x5b xc4 xff x2d)) O
O)))
O)
O)
(C x32 (Some (W x79 x7f x60 xd7 x69 xea xdf xd6)) (C x5f None (C x30 None (C x30 (Some (W x82 x26 x15 xef x73 x44 x69 x5c)) O
(C x31 (Some (W x35 x28 x15 xef x73 x45 x69 x5c)) O
(C x32 (Some (W x1c x23 x15 xef x73 x42 x69 x5c)) O
O)))
O)
O)
O)))
O)
O)
(C x32 (Some (W xf3 x6c x5a x8e x65 xd2 x6a x37)) (C x5f None (C x30 None (C x30 (Some (W xc4 xf1 xf7 x8d x5e xfe x5d x01)) (C x5f None (C x30 None (C x30 (Some (W xc9 xde x04 x45 x86 xbd xe6 xa5)) O
(C x31 (Some (W x16 xdd x04 x45 x86 xbc xe6 xa5)) O
(C x32 (Some (W x63 xdb x04 x45 x86 xbb xe6 xa5)) O
O)))
O)
O)
(C x31 (Some (W x77 xf3 xf7 x8d x5e xff x5d x01)) (C x5f None (C x30 None (C x30 (Some (W x38 x9f x6e xe0 x8d x87 x4c xfc)) O
(C x31 (Some (W xeb xa0 x6e xe0 x8d x88 x4c xfc)) O
(C x32 (Some (W x9e xa2 x6e xe0 x8d x89 x4c xfc)) O
O)))
O)
O)
(C x32 (Some (W x2a xf5 xf7 x8d x5e x00 x5e x01)) (C x5f None (C x30 None (C x30 (Some (W x67 xf4 x48 x2b x99 x91 x81 xd3)) O
(C x31 (Some (W xb4 xf2 x48 x2b x99 x90 x81 xd3)) O
(C x32 (Some (W xcd xf7 x48 x2b x99 x93 x81 xd3)) O
O)))
O)
O)
O)))
O)
O)
(C x33 (Some (W x40 x6b x5a x8e x65 xd1 x6a x37)) (C x5f None (C x30 None (C x30 (Some (W xb5 x6e x79 xf1 x56 x34 xb2 xa9)) (C x5f None (C x30 None (C x30 (Some (W xae x59 x7d x85 xf8 xc1 x2b xa1)) O
(C x31 (Some (W x61 x5b x7d x85 xf8 xc2 x2b xa1)) O
(C x32 (Some (W x48 x56 x7d x85 xf8 xbf x2b xa1)) O
O)))
O)
O)
(C x31 (Some (W x02 x6d x79 xf1 x56 x33 xb2 xa9)) (C x5f None (C x30 None (C x30 (Some (W x3f x99 x13 xea xf0 xf7 xc5 x4a)) O
(C x31 (Some (W x8c x97 x13 xea xf0 xf6 xc5 x4a)) O
(C x32 (Some (W xa5 x9c x13 xea xf0 xf9 xc5 x4a)) O
O)))
O)
O)
(C x32 (Some (W x4f x6b x79 xf1 x56 x32 xb2 xa9)) (C x5f None (C x30 None (C x30 (Some (W x90 x1d x3a x9f xe5 x6d x91 x73)) O
(C x31 (Some (W x43 x1f x3a x9f xe5 x6e x91 x73)) O
(C x32 (Some (W xf6 x20 x3a x9f xe5 x6f x91 x73)) O
O)))
O)
O)
O)))
O)
O)
(C x34 (Some (W x25 x77 x5a x8e x65 xd8 x6a x37)) (C x5f None (C x30 None (C x30 (Some (W x5e x8d x99 x90 x93 xfa x84 x08)) (C x5f None (C x30 None (C x30 (Some (W x2b xb1 xd4 x2f xcc x15 xa1 xee)) O
(C x31 (Some (W x78 xaf xd4 x2f xcc x14 xa1 xee)) O
(C x32 (Some (W x91 xb4 xd4 x2f xcc x17 xa1 xee)) O
O)))
O)
O)
(C x31 (Some (W x11 x8f x99 x90 x93 xfb x84 x08)) (C x5f None (C x30 None (C x30 (Some (W x5a x06 xaf x7a xd7 x1f xd6 xc5)) O
(C x31 (Some (W x0d x08 xaf x7a xd7 x20 xd6 xc5)) O
(C x32 (Some (W xf4 x02 xaf x7a xd7 x1d xd6 xc5)) O
O)))
O)
O)
(C x32 (Some (W xf8 x89 x99 x90 x93 xf8 x84 x08)) (C x5f None (C x30 None (C x30 (Some (W xcd x8d x5e xbf xbb xe1 xe3 x17)) O
(C x31 (Some (W x1a x8c x5e xbf xbb xe0 xe3 x17)) O
(C x32 (Some (W x67 x8a x5e xbf xbb xdf xe3 x17)) O
O)))
O)
O)
O)))
O)
O)
(C x35 (Some (W x72 x75 x5a x8e x65 xd7 x6a x37)) (C x5f None (C x30 None (C x30 (Some (W x2f x38 xbf x45 x88 xf0 x4f x31)) (C x5f None (C x30 None (C x30 (Some (W x30 xea xf7 xfd xa7 xec x5e x0f)) O
(C x31 (Some (W xe3 xeb xf7 xfd xa7 xed x5e x0f)) O
(C x32 (Some (W x96 xed xf7 xfd xa7 xee x5e x0f)) O
O)))
O)
O)
(C x31 (Some (W x7c x36 xbf x45 x88 xef x4f x31)) (C x5f None (C x30 None (C x30 (Some (W x41 x9d x7a xb3 x9c x02 x97 x38)) O
(C x31 (Some (W x8e x9b x7a xb3 x9c x01 x97 x38)) O
(C x32 (Some (W xdb x99 x7a xb3 x9c x00 x97 x38)) O
O)))
O)
O)
(C x32 (Some (W x95 x3b xbf x45 x88 xf2 x4f x31)) (C x5f None (C x30 None (C x30 (Some (W xce x15 xcb x6e xb8 x40 x89 xe6)) O
(C x31 (Some (W x81 x17 xcb x6e xb8 x41 x89 xe6)) O
(C x32 (Some (W x68 x12 xcb x6e xb8 x3e x89 xe6)) O
O)))
O)
O)
O)))
O)
O)
(C x36 (Some (W xbf x73 x5a x8e x65 xd6 x6a x37)) (C x5f None (C x30 None (C x30 (Some (W x80 x22 x55 xe4 x81 xe6 x48 x05)) (C x5f None (C x30 None (C x30 (Some (W xf5 xab x82 xf0 xad x2b xef xc7)) O
(C x31 (Some (W x42 xaa x82 xf0 xad x2a xef xc7)) O
(C x32 (Some (W x8f xa8 x82 xf0 xad x29 xef xc7)) O
O)))
O)
O)
(C x31 (Some (W x33 x24 x55 xe4 x81 xe7 x48 x05)) (C x5f None (C x30 None (C x30 (Some (W x04 x2f x01 x8d xb5 xf5 x9a x1f)) O
(C x31 (Some (W xb7 x30 x01 x8d xb5 xf6 x9a x1f)) O
(C x32 (Some (W x6a x32 x01 x8d xb5 xf7 x9a x1f)) O
O)))
O)
O)
(C x32 (Some (W xe6 x25 x55 xe4 x81 xe8 x48 x05)) (C x5f None (C x30 None (C x30 (Some (W x53 x0e x6b xee xbb xdf xa1 x4b)) O
(C x31 (Some (W xa0 x0c x6b xee xbb xde xa1 x4b)) O
(C x32 (Some (W xb9 x11 x6b xee xbb xe1 xa1 x4b)) O
O)))
O)
O)
O)))
O)
O)
(C x37 (Some (W x0c x72 x5a x8e x65 xd5 x6a x37)) (C x5f None (C x30 None (C x30 (Some (W x51 x6a x48 x49 x7a x3c x50 xaf)) (C x5f None (C x30 None (C x30 (Some (W x9a xa4 xc5 xb7 x64 x06 xed x70)) O
(C x31 (Some (W x4d xa6 xc5 xb7 x64 x07 xed x70)) O
(C x32 (Some (W x34 xa1 xc5 xb7 x64 x04 xed x70)) O
O)))
O)
O)
(C x31 (Some (W x9e x68 x48 x49 x7a x3b x50 xaf)) (C x5f None (C x30 None (C x30 (Some (W x6b xfa xe9 x54 x5e xfc x32 x43)) O
(C x31 (Some (W xb8 xf8 xe9 x54 x5e xfb x32 x43)) O
(C x32 (Some (W xd1 xfd xe9 x54 x5e xfe x32 x43)) O
O)))
O)
O)
(C x32 (Some (W xeb x66 x48 x49 x7a x3a x50 xaf)) (C x5f None (C x30 None (C x30 (Some (W x5c xb6 xdd x45 x54 xb2 x7c x98)) O
(C x31 (Some (W x0f xb8 xdd x45 x54 xb3 x7c x98)) O
(C x32 (Some (W xc2 xb9 xdd x45 x54 xb4 x7c x98)) O
O)))
O)
O)
O)))
O)
O)
(C x38 (Some (W xf1 x7d x5a x8e x65 xdc x6a x37)) (C x5f None (C x30 None (C x30 (Some (W x7a x49 xf8 xfe xb1 x02 xf5 x62)) (C x5f None (C x30 None (C x30 (Some (W x77 xdf xfc x3c x0e x92 xb6 x25)) O
(C x31 (Some (W xc4 xdd xfc x3c x0e x91 xb6 x25)) O
(C x32 (Some (W xdd xe2 xfc x3c x0e x94 xb6 x25)) O
O)))
O)
O)
(C x31 (Some (W x2d x4b xf8 xfe xb1 x03 xf5 x62)) (C x5f None (C x30 None (C x30 (Some (W xe6 x97 x08 x86 x19 x7c xcb xfa)) O
(C x31 (Some (W x99 x99 x08 x86 x19 x7d xcb xfa)) O
(C x32 (Some (W x80 x94 x08 x86 x19 x7a xcb xfa)) O
O)))
O)
O)
(C x32 (Some (W x14 x46 xf8 xfe xb1 x00 xf5 x62)) (C x5f None (C x30 None (C x30 (Some (W xd9 x74 xb7 x3e x00 xbe x96 xa1)) O
(C x31 (Some (W x26 x73 xb7 x3e x00 xbd x96 xa1)) O
(C x32 (Some (W x73 x71 xb7 x3e x00 xbc x96 xa1)) O
O)))
O)
O)
O)))
O)
O)
(C x39 (Some (W x3e x7c x5a x8e x65 xdb x6a x37)) (C x5f None (C x30 None (C x30 (Some (W xcb x33 x8e x9d xab xf8 xed x36)) (C x5f None (C x30 None (C x30 (Some (W xfc x98 x2a x2f x14 xb1 xd9 xdd)) O
(C x31 (Some (W xaf x9a x2a x2f x14 xb2 xd9 xdd)) O
(C x32 (Some (W x62 x9c x2a x2f x14 xb3 xd9 xdd)) O
O)))
O)
O)
(C x31 (Some (W x18 x32 x8e x9d xab xf7 xed x36)) (C x5f None (C x30 None (C x30 (Some (W xad xb9 xc0 xcd x0d xc7 xd2 xb1)) O
(C x31 (Some (W xfa xb7 xc0 xcd x0d xc6 xd2 xb1)) O
(C x32 (Some (W x47 xb6 xc0 xcd x0d xc5 xd2 xb1)) O
O)))
O)
O)
(C x32 (Some (W x31 x37 x8e x9d xab xfa xed x36)) (C x5f None (C x30 None (C x30 (Some (W xba xdc x11 x15 x27 x85 x07 x0b)) O
(C x31 (Some (W x6d xde x11 x15 x27 x86 x07 x0b)) O
(C x32 (Some (W x54 xd9 x11 x15 x27 x83 x07 x0b)) O
O)))
O)
O)
O)))
O)
O)
O))))))))))
(C x35 None (C x30 (Some (W x50 x30 x58 x8e x65 xce x67 x37)) (C x5f None (C x30 None (C x30 (Some (W x85 x7f x95 x2d x65 x98 x57 x65)) (C x5f None (C x30 None (C x30 (Some (W x7e x2e x3e x8d xb5 xd4 xda xbd)) O
(C x31 (Some (W x31 x30 x3e x8d xb5 xd5 xda xbd)) O
(C x32 (Some (W x18 x2b x3e x8d xb5 xd2 xda xbd)) O
O)))
O)
O)
(C x31 (Some (W xd2 x7d x95 x2d x65 x97 x57 x65)) (C x5f None (C x30 None (C x30 (Some (W x4f x47 xd6 x43 xaa x4a x59 xe8)) O
(C x31 (Some (W x9c x45 xd6 x43 xaa x49 x59 xe8)) O
(C x32 (Some (W xb5 x4a xd6 x43 xaa x4c x59 xe8)) O
O)))
O)
O)
(C x32 (Some (W x1f x7c x95 x2d x65 x96 x57 x65)) (C x5f None (C x30 None (C x30 (Some (W xa0 x31 x6c xe2 xa3 x40 x52 xbc)) O
(C x31 (Some (W x53 x33 x6c xe2 xa3 x41 x52 xbc)) O
(C x32 (Some (W x06 x35 x6c xe2 xa3 x42 x52 xbc)) O
O)))
O)
O)
O)))
O)
O)
(C x31 (Some (W x03 x32 x58 x8e x65 xcf x67 x37)) (C x5f None (C x30 None (C x30 (Some (W xd4 x02 x13 x78 x70 xa2 x1f x3c)) (C x5f None (C x30 None (C x30 (Some (W x99 xb3 x1a x88 x74 x36 x02 x09)) O
(C x31 (Some (W xe6 xb1 x1a x88 x74 x35 x02 x09)) O
(C x32 (Some (W x33 xb0 x1a x88 x74 x34 x02 x09)) O
O)))
O)
O)
(C x31 (Some (W x87 x04 x13 x78 x70 xa3 x1f x3c)) (C x5f None (C x30 None (C x30 (Some (W xc8 x08 xf5 xd2 x7f x40 x37 xe0)) O
(C x31 (Some (W x7b x0a xf5 xd2 x7f x41 x37 xe0)) O
(C x32 (Some (W x2e x0c xf5 xd2 x7f x42 x37 xe0)) O
O)))
O)
O)
(C x32 (Some (W x3a x06 x13 x78 x70 xa4 x1f x3c)) (C x5f None (C x30 None (C x30 (Some (W x37 xc9 x5e x6e x87 x0a x9d x36)) O
(C x31 (Some (W x84 xc7 x5e x6e x87 x09 x9d x36)) O
(C x32 (Some (W x9d xcc x5e x6e x87 x0c x9d x36)) O
O)))
O)
O)
O)))
O)
O)
(C x32 (Some (W xb6 x33 x58 x8e x65 xd0 x67 x37)) (C x5f None (C x30 None (C x30 (Some (W xe3 x8c x7c x13 x78 x4c x85 x92)) (C x5f None (C x30 None (C x30 (Some (W x74 x43 xee x84 x20 x23 xa8 xa0)) O
(C x31 (Some (W x27 x45 xee x84 x20 x24 xa8 xa0)) O
(C x32 (Some (W xda x46 xee x84 x20 x25 xa8 xa0)) O
O)))
O)
O)
(C x31 (Some (W x30 x8b x7c x13 x78 x4b x85 x92)) (C x5f None (C x30 None (C x30 (Some (W x25 x26 xe0 x23 x1a x99 x0d x75)) O
(C x31 (Some (W x72 x24 xe0 x23 x1a x98 x0d x75)) O
(C x32 (Some (W xbf x22 xe0 x23 x1a x97 x0d x75)) O
O)))
O)
O)
(C x32 (Some (W x49 x90 x7c x13 x78 x4e x85 x92)) (C x5f None (C x30 None (C x30 (Some (W x52 xfb xd5 xf6 x30 x57 x18 x79)) O
(C x31 (Some (W x05 xfd xd5 xf6 x30 x58 x18 x79)) O
(C x32 (Some (W xec xf7 xd5 xf6 x30 x55 x18 x79)) O
O)))
O)
O)
O)))
O)
O)
(C x33 (Some (W x69 x35 x58 x8e x65 xd1 x67 x37)) (C x5f None (C x30 None (C x30 (Some (W x32 x65 xfb x75 x7e x56 xd2 xbf)) (C x5f None (C x30 None (C x30 (Some (W xef x32 x5f x76 xf6 xd1 x52 xff)) O
(C x31 (Some (W x3c x31 x5f x76 xf6 xd0 x52 xff)) O
(C x32 (Some (W x55 x36 x5f x76 xf6 xd3 x52 xff)) O
O)))
O)
O)
(C x31 (Some (W xe5 x66 xfb x75 x7e x57 xd2 xbf)) (C x5f None (C x30 None (C x30 (Some (W x1e xdd x3a xd9 xfc xdb x0c x2d)) O
(C x31 (Some (W xd1 xde x3a xd9 xfc xdc x0c x2d)) O
(C x32 (Some (W xb8 xd9 x3a xd9 xfc xd9 x0c x2d)) O
O)))
O)
O)
(C x32 (Some (W xcc x61 xfb x75 x7e x54 xd2 xbf)) (C x5f None (C x30 None (C x30 (Some (W x11 xba xe9 x91 xe3 x1d xd8 xd3)) O
(C x31 (Some (W x5e xb8 xe9 x91 xe3 x1c xd8 xd3)) O
(C x32 (Some (W xab xb6 xe9 x91 xe3 x1b xd8 xd3)) O
O)))
O)
O)
O)))
O)
O)
(C x34 (Some (W x1c x37 x58 x8e x65 xd2 x67 x37)) (C x5f None (C x30 None (C x30 (Some (W x21 x7b x64 x85 x88 xa0 xf5 x6a)) (C x5f None (C x30 None (C x30 (Some (W xea xce x85 x33 x24 x99 x59 xe2)) O
(C x31 (Some (W x9d xd0 x85 x33 x24 x9a x59 xe2)) O
(C x32 (Some (W x84 xcb x85 x33 x24 x97 x59 xe2)) O
O)))
O)
O)
(C x31 (Some (W x6e x79 x64 x85 x88 x9f xf5 x6a)) (C x5f None (C x30 None (C x30 (Some (W x3b x0e x1d xea x18 x8f xd7 x0c)) O
(C x31 (Some (W x88 x0c x1d xea x18 x8e xd7 x0c)) O
(C x32 (Some (W xa1 x11 x1d xea x18 x91 xd7 x0c)) O
O)))
O)
O)
(C x32 (Some (W xbb x77 x64 x85 x88 x9e xf5 x6a)) (C x5f None (C x30 None (C x30 (Some (W xec x35 x9e x87 x12 x85 x8a xdf)) O
(C x31 (Some (W x9f x37 x9e x87 x12 x86 x8a xdf)) O
(C x32 (Some (W x52 x39 x9e x87 x12 x87 x8a xdf)) O
O)))
O)
O)
O)))
O)
O)
(C x35 (Some (W xcf x38 x58 x8e x65 xd3 x67 x37)) (C x5f None (C x30 None (C x30 (Some (W x10 x62 x72 xe6 x8e x0a x90 x96)) (C x5f None (C x30 None (C x30 (Some (W x45 x90 xb0 x5c xd9 x75 xfc x91)) O
(C x31 (Some (W x92 x8e xb0 x5c xd9 x74 xfc x91)) O
(C x32 (Some (W xdf x8c xb0 x5c xd9 x73 xfc x91)) O
O)))
O)
O)
(C x31 (Some (W xc3 x63 x72 xe6 x8e x0b x90 x96)) (C x5f None (C x30 None (C x30 (Some (W x94 x68 x2f xbf xdf x7f x49 xbf)) O
(C x31 (Some (W x47 x6a x2f xbf xdf x80 x49 xbf)) O
(C x32 (Some (W xfa x6b x2f xbf xdf x81 x49 xbf)) O
O)))
O)
O)
(C x32 (Some (W x76 x65 x72 xe6 x8e x0c x90 x96)) (C x5f None (C x30 None (C x30 (Some (W xa3 xf2 x98 x5a xe7 x29 xaf x15)) O
(C x31 (Some (W xf0 xf0 x98 x5a xe7 x28 xaf x15)) O
(C x32 (Some (W x09 xf6 x98 x5a xe7 x2b xaf x15)) O
O)))
O)
O)
O)))
O)
O)
(C x36 (Some (W x82 x3a x58 x8e x65 xd4 x67 x37)) (C x5f None (C x30 None (C x30 (Some (W xbf xdd x4b x31 x9a x94 xc4 x6d)) (C x5f None (C x30 None (C x30 (Some (W x80 xf0 xc2 xe8 xd4 xfa xeb xc9)) O
(C x31 (Some (W x33 xf2 xc2 xe8 xd4 xfb xeb xc9)) O
(C x32 (Some (W xe6 xf3 xc2 xe8 xd4 xfc xeb xc9)) O
O)))
O)
O)
(C x31 (Some (W x0c xdc x4b x31 x9a x93 xc4 x6d)) (C x5f None (C x30 None (C x30 (Some (W x51 x38 xb6 x4d xcd x50 xf3 x73)) O
(C x31 (Some (W x9e x36 xb6 x4d xcd x4f xf3 x73)) O
(C x32 (Some (W xeb x34 xb6 x4d xcd x4e xf3 x73)) O
O)))
O)
O)
(C x32 (Some (W x25 xe1 x4b x31 x9a x96 xc4 x6d)) (C x5f None (C x30 None (C x30 (Some (W x5e x5b x07 x95 xe6 x0e x28 xcd)) O
(C x31 (Some (W x11 x5d x07 x95 xe6 x0f x28 xcd)) O
(C x32 (Some (W xf8 x57 x07 x95 xe6 x0c x28 xcd)) O
O)))
O)
O)
O)))
O)
O)
(C x37 (Some (W x35 x3c x58 x8e x65 xd5 x67 x37)) (C x5f None (C x30 None (C x30 (Some (W x2e x9e xb5 xcc xa1 x5e x2a xc4)) (C x5f None (C x30 None (C x30 (Some (W xfb x6f x06 xad x8b xa8 xc0 x61)) O
(C x31 (Some (W x48 x6e x06 xad x8b xa7 xc0 x61)) O
(C x32 (Some (W x61 x73 x06 xad x8b xaa xc0 x61)) O
O)))
O)
O)
(C x31 (Some (W xe1 x9f xb5 xcc xa1 x5f x2a xc4)) (C x5f None (C x30 None (C x30 (Some (W xaa x85 x70 x0e x92 xb2 xc7 x8d)) O
(C x31 (Some (W x5d x87 x70 x0e x92 xb3 xc7 x8d)) O
(C x32 (Some (W x44 x82 x70 x0e x92 xb0 xc7 x8d)) O
O)))
O)
O)
(C x32 (Some (W xc8 x9a xb5 xcc xa1 x5c x2a xc4)) (C x5f None (C x30 None (C x30 (Some (W x9d x62 x1f xc7 x78 xf4 x92 x34)) O
(C x31 (Some (W xea x60 x1f xc7 x78 xf3 x92 x34)) O
(C x32 (Some (W x37 x5f x1f xc7 x78 xf2 x92 x34)) O
O)))
O)
O)
O)))
O)
O)
(C x38 (Some (W xe8 x3d x58 x8e x65 xd6 x67 x37)) (C x5f None (C x30 None (C x30 (Some (W xfd xe1 xc2 x2d xa8 x68 xc4 xef)) (C x5f None (C x30 None (C x30 (Some (W x76 x5c xc4 x0e x1e x42 x7f xbf)) O
(C x31 (Some (W x29 x5e xc4 x0e x1e x43 x7f xbf)) O
(C x32 (Some (W x10 x59 xc4 x0e x1e x40 x7f xbf)) O
O)))
O)
O)
(C x31 (Some (W x4a xe0 xc2 x2d xa8 x67 xc4 xef)) (C x5f None (C x30 None (C x30 (Some (W x47 x36 x45 x72 x16 x18 xd3 x67)) O
(C x31 (Some (W x94 x34 x45 x72 x16 x17 xd3 x67)) O
(C x32 (Some (W xad x39 x45 x72 x16 x1a xd3 x67)) O
O)))
O)
O)
(C x32 (Some (W x97 xde xc2 x2d xa8 x66 xc4 xef)) (C x5f None (C x30 None (C x30 (Some (W x98 x20 xdb x10 x10 x0e xcc x3b)) O
(C x31 (Some (W x4b x22 xdb x10 x10 x0f xcc x3b)) O
(C x32 (Some (W xfe x23 xdb x10 x10 x10 xcc x3b)) O
O)))
O)
O)
O)))
O)
O)
(C x39 (Some (W x9b x3f x58 x8e x65 xd7 x67 x37)) (C x5f None (C x30 None (C x30 (Some (W x0c x56 x9d x3e xb2 x92 x9a x9c)) (C x5f None (C x30 None (C x30 (Some (W x51 xb6 x2e x20 x82 xdd x85 x4e)) O
(C x31 (Some (W x9e xb4 x2e x20 x82 xdc x85 x4e)) O
(C x32 (Some (W xeb xb2 x2e x20 x82 xdb x85 x4e)) O
O)))
O)
O)
(C x31 (Some (W xbf x57 x9d x3e xb2 x93 x9a x9c)) (C x5f None (C x30 None (C x30 (Some (W x80 x6e x3b xbb x89 x87 x7e xa4)) O
(C x31 (Some (W x33 x70 x3b xbb x89 x88 x7e xa4)) O
(C x32 (Some (W xe6 x71 x3b xbb x89 x89 x7e xa4)) O
O)))
O)
O)
(C x32 (Some (W x72 x59 x9d x3e xb2 x94 x9a x9c)) (C x5f None (C x30 None (C x30 (Some (W x2f x84 xa5 x1c x90 x91 x85 xd0)) O
(C x31 (Some (W x7c x82 xa5 x1c x90 x90 x85 xd0)) O
(C x32 (Some (W x95 x87 xa5 x1c x90 x93 x85 xd0)) O
O)))
O)
O)
O)))
O)
O)
O))))))))))
(C x36 None (C x30 (Some (W x6b xa3 x60 x8e x65 xe0 x71 x37)) (C x5f None (C x30 None (C x30 (Some (W xdc x1f x95 x10 xda x2e x87 xe3)) (C x5f None (C x30 None (C x30 (Some (W xe1 x1d x43 x84 x2a x34 xa5 x56)) O
(C x31 (Some (W x2e x1c x43 x84 x2a x33 xa5 x56)) O
(C x32 (Some (W x7b x1a x43 x84 x2a x32 xa5 x56)) O
O)))
O)
O)
(C x31 (Some (W x8f x21 x95 x10 xda x2f x87 xe3)) (C x5f None (C x30 None (C x30 (Some (W xd0 xaf x4f xcd x35 x9e xba x2b)) O
(C x31 (Some (W x83 xb1 x4f xcd x35 x9f xba x2b)) O
(C x32 (Some (W x36 xb3 x4f xcd x35 xa0 xba x2b)) O
O)))
O)
O)
(C x32 (Some (W x42 x23 x95 x10 xda x30 x87 xe3)) (C x5f None (C x30 None (C x30 (Some (W x7f x80 x2a x30 x3c x28 x74 x59)) O
(C x31 (Some (W xcc x7e x2a x30 x3c x27 x74 x59)) O
(C x32 (Some (W xe5 x83 x2a x30 x3c x2a x74 x59)) O
O)))
O)
O)
O)))
O)
O)
(C x31 (Some (W xb8 xa1 x60 x8e x65 xdf x71 x37)) (C x5f None (C x30 None (C x30 (Some (W x8d x40 x2b xaf xd3 x44 x80 xb7)) (C x5f None (C x30 None (C x30 (Some (W x06 xf6 xe0 xb1 x3d x14 xb5 x63)) O
(C x31 (Some (W xb9 xf7 xe0 xb1 x3d x15 xb5 x63)) O
(C x32 (Some (W xa0 xf2 xe0 xb1 x3d x12 xb5 x63)) O
O)))
O)
O)
(C x31 (Some (W xda x3e x2b xaf xd3 x43 x80 xb7)) (C x5f None (C x30 None (C x30 (Some (W x97 xcf x62 x67 x32 xaa xec x8c)) O
(C x31 (Some (W xe4 xcd x62 x67 x32 xa9 xec x8c)) O
(C x32 (Some (W xfd xd2 x62 x67 x32 xac xec x8c)) O
O)))
O)
O)
(C x32 (Some (W x27 x3d x2b xaf xd3 x42 x80 xb7)) (C x5f None (C x30 None (C x30 (Some (W x28 x3e xf9 x3f x2d xe0 x44 x8b)) O
(C x31 (Some (W xdb x3f xf9 x3f x2d xe1 x44 x8b)) O
(C x32 (Some (W x8e x41 xf9 x3f x2d xe2 x44 x8b)) O
O)))
O)
O)
O)))
O)
O)
(C x32 (Some (W xd1 xa6 x60 x8e x65 xe2 x71 x37)) (C x5f None (C x30 None (C x30 (Some (W x1a x0e x7d x82 xea x82 xf7 xbb)) (C x5f None (C x30 None (C x30 (Some (W xd7 x14 x69 x31 x2e xaa xa3 x96)) O
(C x31 (Some (W x24 x13 x69 x31 x2e xa9 xa3 x96)) O
(C x32 (Some (W x3d x18 x69 x31 x2e xac xa3 x96)) O
O)))
O)
O)
(C x31 (Some (W xcd x0f x7d x82 xea x83 xf7 xbb)) (C x5f None (C x30 None (C x30 (Some (W x46 x90 xe8 x93 x34 x14 xf1 xc3)) O
(C x31 (Some (W xf9 x91 xe8 x93 x34 x15 xf1 xc3)) O
(C x32 (Some (W xe0 x8c xe8 x93 x34 x12 xf1 xc3)) O
O)))
O)
O)
(C x32 (Some (W xb4 x0a x7d x82 xea x80 xf7 xbb)) (C x5f None (C x30 None (C x30 (Some (W xb9 xc2 x96 xc0 x1d xd6 x79 xbf)) O
(C x31 (Some (W x06 xc1 x96 xc0 x1d xd5 x79 xbf)) O
(C x32 (Some (W x53 xbf x96 xc0 x1d xd4 x79 xbf)) O
O)))
O)
O)
O)))
O)
O)
(C x33 (Some (W x1e xa5 x60 x8e x65 xe1 x71 x37)) (C x5f None (C x30 None (C x30 (Some (W xeb x63 xa1 x1f xe4 x78 x3d x8e)) (C x5f None (C x30 None (C x30 (Some (W x5c xb5 x54 x09 xf3 x33 x4b xa4)) O
(C x31 (Some (W x0f xb7 x54 x09 xf3 x34 x4b xa4)) O
(C x32 (Some (W xc2 xb8 x54 x09 xf3 x35 x4b xa4)) O
O)))
O)
O)
(C x31 (Some (W x38 x62 xa1 x1f xe4 x77 x3d x8e)) (C x5f None (C x30 None (C x30 (Some (W x0d xd6 xea xa7 xec x49 x44 x78)) O
(C x31 (Some (W x5a xd4 xea xa7 xec x48 x44 x78)) O
(C x32 (Some (W xa7 xd2 xea xa7 xec x47 x44 x78)) O
O)))
O)
O)
(C x32 (Some (W x51 x67 xa1 x1f xe4 x7a x3d x8e)) (C x5f None (C x30 None (C x30 (Some (W x9a xa3 x3c x7b x03 x88 xbb x7c)) O
(C x31 (Some (W x4d xa5 x3c x7b x03 x89 xbb x7c)) O
(C x32 (Some (W x34 xa0 x3c x7b x03 x86 xbb x7c)) O
O)))
O)
O)
O)))
O)
O)
(C x34 (Some (W x37 xaa x60 x8e x65 xe4 x71 x37)) (C x5f None (C x30 None (C x30 (Some (W xf8 x86 xf2 x66 xfd x36 x72 xe7)) (C x5f None (C x30 None (C x30 (Some (W xcd x8c xd5 x82 x5a x63 xb2 x23)) O
(C x31 (Some (W x1a x8b xd5 x82 x5a x62 xb2 x23)) O
(C x32 (Some (W x67 x89 xd5 x82 x5a x61 xb2 x23)) O
O)))
O)
O)
(C x31 (Some (W xab x88 xf2 x66 xfd x37 x72 xe7)) (C x5f None (C x30 None (C x30 (Some (W x1c x17 x3e xcc x65 x4d x34 xf9)) O
(C x31 (Some (W xcf x18 x3e xcc x65 x4e x34 xf9)) O
(C x32 (Some (W x82 x1a x3e xcc x65 x4f x34 xf9)) O
O)))
O)
O)
(C x32 (Some (W x5e x8a xf2 x66 xfd x38 x72 xe7)) (C x5f None (C x30 None (C x30 (Some (W x2b xb0 x4b xf3 x6a x97 x6f xfa)) O
(C x31 (Some (W x78 xae x4b xf3 x6a x96 x6f xfa)) O
(C x32 (Some (W x91 xb3 x4b xf3 x6a x99 x6f xfa)) O
O)))
O)
O)
O)))
O)
O)
(C x35 (Some (W x84 xa8 x60 x8e x65 xe3 x71 x37)) (C x5f None (C x30 None (C x30 (Some (W x89 xc6 x88 xcb xf5 x6c x0c x91)) (C x5f None (C x30 None (C x30 (Some (W x92 x0d x91 x6c xa7 xf5 xf9 x0a)) O
(C x31 (Some (W x45 x0f x91 x6c xa7 xf6 xf9 x0a)) O
(C x32 (Some (W x2c x0a x91 x6c xa7 xf3 xf9 x0a)) O
O)))
O)
O)
(C x31 (Some (W xd6 xc4 x88 xcb xf5 x6b x0c x91)) (C x5f None (C x30 None (C x30 (Some (W xc3 x1e x85 x23 x9c xeb xe4 x35)) O
(C x31 (Some (W x10 x1d x85 x23 x9c xea xe4 x35)) O
(C x32 (Some (W x29 x22 x85 x23 x9c xed xe4 x35)) O
O)))
O)
O)
(C x32 (Some (W x23 xc3 x88 xcb xf5 x6a x0c x91)) (C x5f None (C x30 None (C x30 (Some (W xb4 x55 xa9 xfa x96 xc1 x89 x32)) O
(C x31 (Some (W x67 x57 xa9 xfa x96 xc2 x89 x32)) O
(C x32 (Some (W x1a x59 xa9 xfa x96 xc3 x89 x32)) O
O)))
O)
O)
O)))
O)
O)
(C x36 (Some (W x9d xad x60 x8e x65 xe6 x71 x37)) (C x5f None (C x30 None (C x30 (Some (W xd6 x3e xda xd8 x0d x6b xe2 xbf)) (C x5f None (C x30 None (C x30 (Some (W xc3 x9c xfd xf5 x50 x78 x77 x10)) O
(C x31 (Some (W x10 x9b xfd xf5 x50 x77 x77 x10)) O
(C x32 (Some (W x29 xa0 xfd xf5 x50 x7a x77 x10)) O
O)))
O)
O)
(C x31 (Some (W x89 x40 xda xd8 x0d x6c xe2 xbf)) (C x5f None (C x30 None (C x30 (Some (W x92 x8b x09 x3f x5c x82 x8c xe5)) O
(C x31 (Some (W x45 x8d x09 x3f x5c x83 x8c xe5)) O
(C x32 (Some (W x2c x88 x09 x3f x5c x80 x8c xe5)) O
O)))
O)
O)
(C x32 (Some (W x70 x3b xda xd8 x0d x69 xe2 xbf)) (C x5f None (C x30 None (C x30 (Some (W x65 x0b x15 x84 x40 xc4 x06 x38)) O
(C x31 (Some (W xb2 x09 x15 x84 x40 xc3 x06 x38)) O
(C x32 (Some (W xff x07 x15 x84 x40 xc2 x06 x38)) O
O)))
O)
O)
O)))
O)
O)
(C x37 (Some (W xea xab x60 x8e x65 xe5 x71 x37)) (C x5f None (C x30 None (C x30 (Some (W x27 x31 xce xc9 x03 x41 x2c x15)) (C x5f None (C x30 None (C x30 (Some (W x28 x3a xea xe4 x96 xf9 x69 x40)) O
(C x31 (Some (W xdb x3b xea xe4 x96 xfa x69 x40)) O
(C x32 (Some (W x8e x3d xea xe4 x96 xfb x69 x40)) O
O)))
O)
O)
(C x31 (Some (W x74 x2f xce xc9 x03 x40 x2c x15)) (C x5f None (C x30 None (C x30 (Some (W x79 x79 x81 x9b x8b xef xe7 x6a)) O
(C x31 (Some (W xc6 x77 x81 x9b x8b xee xe7 x6a)) O
(C x32 (Some (W x13 x76 x81 x9b x8b xed xe7 x6a)) O
O)))
O)
O)
(C x32 (Some (W x8d x34 xce xc9 x03 x43 x2c x15)) (C x5f None (C x30 None (C x30 (Some (W x06 xf2 xd1 x56 xa7 x2d xda x18)) O
(C x31 (Some (W xb9 xf3 xd1 x56 xa7 x2e xda x18)) O
(C x32 (Some (W xa0 xee xd1 x56 xa7 x2b xda x18)) O
O)))
O)
O)
O)))
O)
O)
(C x38 (Some (W xd3 x95 x60 x8e x65 xd8 x71 x37)) (C x5f None (C x30 None (C x30 (Some (W x64 x48 x0a x10 x97 xfe xac x58)) (C x5f None (C x30 None (C x30 (Some (W xa9 xb2 x50 x04 x3a x3c x02 x6f)) O
(C x31 (Some (W xf6 xb0 x50 x04 x3a x3b x02 x6f)) O
(C x32 (Some (W x43 xaf x50 x04 x3a x3a x02 x6f)) O
O)))
O)
O)
(C x31 (Some (W x17 x4a x0a x10 x97 xff xac x58)) (C x5f None (C x30 None (C x30 (Some (W x18 xef xb8 x13 x44 x06 x25 x1a)) O
(C x31 (Some (W xcb xf0 xb8 x13 x44 x07 x25 x1a)) O
(C x32 (Some (W x7e xf2 xb8 x13 x44 x08 x25 x1a)) O
O)))
O)
O)
(C x32 (Some (W xca x4b x0a x10 x97 x00 xad x58)) (C x5f None (C x30 None (C x30 (Some (W xc7 x04 x23 x75 x4a x10 x2c x46)) O
(C x31 (Some (W x14 x03 x23 x75 x4a x0f x2c x46)) O
(C x32 (Some (W x2d x08 x23 x75 x4a x12 x2c x46)) O
O)))
O)
O)
O)))
O)
O)
(C x39 (Some (W x20 x94 x60 x8e x65 xd7 x71 x37)) (C x5f None (C x30 None (C x30 (Some (W x55 xaf xfc xe8 x91 xb4 x71 x57)) (C x5f None (C x30 None (C x30 (Some (W x8e x91 xf0 x6f x5f x6f x7a xb6)) O
(C x31 (Some (W x41 x93 xf0 x6f x5f x70 x7a xb6)) O
(C x32 (Some (W x28 x8e xf0 x6f x5f x6d x7a xb6)) O
O)))
O)
O)
(C x31 (Some (W xa2 xad xfc xe8 x91 xb3 x71 x57)) (C x5f None (C x30 None (C x30 (Some (W x9f x26 x86 x48 x5a x25 xd2 xb4)) O
(C x31 (Some (W xec x24 x86 x48 x5a x24 xd2 xb4)) O
(C x32 (Some (W x05 x2a x86 x48 x5a x27 xd2 xb4)) O
O)))
O)
O)
(C x32 (Some (W xef xab xfc xe8 x91 xb2 x71 x57)) (C x5f None (C x30 None (C x30 (Some (W xf0 x65 x1d xff x4e x1b x50 xdf)) O
(C x31 (Some (W xa3 x67 x1d xff x4e x1c x50 xdf)) O
(C x32 (Some (W x56 x69 x1d xff x4e x1d x50 xdf)) O
O)))
O)
O)
O)))
O)
O)
O))))))))))
(C x37 None (C x30 (Some (W xe2 x89 x5d x8e x65 x5a x6e x37)) (C x5f None (C x30 None (C x30 (Some (W xdf x6f x81 x24 xa5 x90 x00 x73)) (C x5f None (C x30 None (C x30 (Some (W x60 x2d x21 x6c x11 x1f x30 x47)) O
(C x31 (Some (W x13 x2f x21 x6c x11 x20 x30 x47)) O
(C x32 (Some (W xc6 x30 x21 x6c x11 x21 x30 x47)) O
O)))
O)
O)
(C x31 (Some (W x2c x6e x81 x24 xa5 x8f x00 x73)) (C x5f None (C x30 None (C x30 (Some (W xb1 x5c xa1 x43 x0c x75 x41 x44)) O
(C x31 (Some (W xfe x5a xa1 x43 x0c x74 x41 x44)) O
(C x32 (Some (W x4b x59 xa1 x43 x0c x73 x41 x44)) O
O)))
O)
O)
(C x32 (Some (W x45 x73 x81 x24 xa5 x92 x00 x73)) (C x5f None (C x30 None (C x30 (Some (W x3e x2a xf3 x16 x23 xb3 xb8 x48)) O
(C x31 (Some (W xf1 x2b xf3 x16 x23 xb4 xb8 x48)) O
(C x32 (Some (W xd8 x26 xf3 x16 x23 xb1 xb8 x48)) O
O)))
O)
O)
O)))
O)
O)
(C x31 (Some (W x95 x8b x5d x8e x65 x5b x6e x37)) (C x5f None (C x30 None (C x30 (Some (W xce x85 xea x33 xaf xda x23 x1e)) (C x5f None (C x30 None (C x30 (Some (W xdb x34 xd6 x27 x3f xe6 x83 x28)) O
(C x31 (Some (W x28 x33 xd6 x27 x3f xe5 x83 x28)) O
(C x32 (Some (W x41 x38 xd6 x27 x3f xe8 x83 x28)) O
O)))
O)
O)
(C x31 (Some (W x81 x87 xea x33 xaf xdb x23 x1e)) (C x5f None (C x30 None (C x30 (Some (W x0a x1c x3e x71 x4a x70 x05 xfe)) O
(C x31 (Some (W xbd x1d x3e x71 x4a x71 x05 xfe)) O
(C x32 (Some (W xa4 x18 x3e x71 x4a x6e x05 xfe)) O
O)))
O)
O)
(C x32 (Some (W x68 x82 xea x33 xaf xd8 x23 x1e)) (C x5f None (C x30 None (C x30 (Some (W x7d xa3 xed xb5 x2e x32 x13 x50)) O
(C x31 (Some (W xca xa1 xed xb5 x2e x31 x13 x50)) O
(C x32 (Some (W x17 xa0 xed xb5 x2e x30 x13 x50)) O
O)))
O)
O)
O)))
O)
O)
(C x32 (Some (W x7c x86 x5d x8e x65 x58 x6e x37)) (C x5f None (C x30 None (C x30 (Some (W x41 x0d x9a x78 x93 x9c x31 x70)) (C x5f None (C x30 None (C x30 (Some (W xca x9d x71 xb5 x60 x3d xea x5d)) O
(C x31 (Some (W x7d x9f x71 xb5 x60 x3e xea x5d)) O
(C x32 (Some (W x64 x9a x71 xb5 x60 x3b xea x5d)) O
O)))
O)
O)
(C x31 (Some (W x8e x0b x9a x78 x93 x9b x31 x70)) (C x5f None (C x30 None (C x30 (Some (W x9b x61 x08 x54 x5a xb3 xe3 x31)) O
(C x31 (Some (W xe8 x5f x08 x54 x5a xb2 xe3 x31)) O
(C x32 (Some (W x01 x65 x08 x54 x5a xb5 xe3 x31)) O
O)))
O)
O)
(C x32 (Some (W xdb x09 x9a x78 x93 x9a x31 x70)) (C x5f None (C x30 None (C x30 (Some (W x4c x99 xfb x0a x4f x29 xce x5c)) O
(C x31 (Some (W xff x9a xfb x0a x4f x2a xce x5c)) O
(C x32 (Some (W xb2 x9c xfb x0a x4f x2b xce x5c)) O
O)))
O)
O)
O)))
O)
O)
(C x33 (Some (W x2f x88 x5d x8e x65 x59 x6e x37)) (C x5f None (C x30 None (C x30 (Some (W x30 x5a x17 xc3 x9e x86 xf9 x46)) (C x5f None (C x30 None (C x30 (Some (W x25 x6b xaa xd2 x19 x5e x7d x54)) O
(C x31 (Some (W x72 x69 xaa xd2 x19 x5d x7d x54)) O
(C x32 (Some (W xbf x67 xaa xd2 x19 x5c x7d x54)) O
O)))
O)
O)
(C x31 (Some (W xe3 x5b x17 xc3 x9e x87 xf9 x46)) (C x5f None (C x30 None (C x30 (Some (W x74 x88 xb8 x33 x20 xe8 x17 x80)) O
(C x31 (Some (W x27 x8a xb8 x33 x20 xe9 x17 x80)) O
(C x32 (Some (W xda x8b xb8 x33 x20 xea x17 x80)) O
O)))
O)
O)
(C x32 (Some (W x96 x5d x17 xc3 x9e x88 xf9 x46)) (C x5f None (C x30 None (C x30 (Some (W x83 xfc x92 x44 x2a x12 xee x2c)) O
(C x31 (Some (W xd0 xfa x92 x44 x2a x11 xee x2c)) O
(C x32 (Some (W xe9 xff x92 x44 x2a x14 xee x2c)) O
O)))
O)
O)
O)))
O)
O)
(C x34 (Some (W x16 x83 x5d x8e x65 x56 x6e x37)) (C x5f None (C x30 None (C x30 (Some (W x03 x09 x23 x7c x85 xc8 x31 xee)) (C x5f None (C x30 None (C x30 (Some (W xd4 x9f xe2 x90 x17 x76 x0a x6a)) O
(C x31 (Some (W x87 xa1 xe2 x90 x17 x77 x0a x6a)) O
(C x32 (Some (W x3a xa3 xe2 x90 x17 x78 x0a x6a)) O
O)))
O)
O)
(C x31 (Some (W x50 x07 x23 x7c x85 xc7 x31 xee)) (C x5f None (C x30 None (C x30 (Some (W x85 x1c x65 x46 x0c x6c x42 x93)) O
(C x31 (Some (W xd2 x1a x65 x46 x0c x6b x42 x93)) O
(C x32 (Some (W x1f x19 x65 x46 x0c x6a x42 x93)) O
O)))
O)
O)
(C x32 (Some (W x69 x0c x23 x7c x85 xca x31 xee)) (C x5f None (C x30 None (C x30 (Some (W x32 x02 xcb x8e x25 x2a xbd xed)) O
(C x31 (Some (W xe5 x03 xcb x8e x25 x2b xbd xed)) O
(C x32 (Some (W xcc xfe xca x8e x25 x28 xbd xed)) O
O)))
O)
O)
O)))
O)
O)
(C x35 (Some (W xc9 x84 x5d x8e x65 x57 x6e x37)) (C x5f None (C x30 None (C x30 (Some (W xd2 x4c x30 xdd x8b xd2 xcb x19)) (C x5f None (C x30 None (C x30 (Some (W x4f x8c xa0 xf2 xa9 x0f xc9 xc7)) O
(C x31 (Some (W x9c x8a xa0 xf2 xa9 x0e xc9 xc7)) O
(C x32 (Some (W xb5 x8f xa0 xf2 xa9 x11 xc9 xc7)) O
O)))
O)
O)
(C x31 (Some (W x85 x4e x30 xdd x8b xd3 xcb x19)) (C x5f None (C x30 None (C x30 (Some (W x7e x73 x08 x3c xb5 x99 x4a x9d)) O
(C x31 (Some (W x31 x75 x08 x3c xb5 x9a x4a x9d)) O
(C x32 (Some (W x18 x70 x08 x3c xb5 x97 x4a x9d)) O
O)))
O)
O)
(C x32 (Some (W x6c x49 x30 xdd x8b xd0 xcb x19)) (C x5f None (C x30 None (C x30 (Some (W xf1 xfa xb7 x80 x99 x5b x58 xef)) O
(C x31 (Some (W x3e xf9 xb7 x80 x99 x5a x58 xef)) O
(C x32 (Some (W x8b xf7 xb7 x80 x99 x59 x58 xef)) O
O)))
O)
O)
O)))
O)
O)
(C x36 (Some (W xb0 x7f x5d x8e x65 x54 x6e x37)) (C x5f None (C x30 None (C x30 (Some (W xa5 x77 x3a x0a x75 x14 xc1 x15)) (C x5f None (C x30 None (C x30 (Some (W xde xe2 x38 x03 xf6 x3c x5c x80)) O
(C x31 (Some (W x91 xe4 x38 x03 xf6 x3d x5c x80)) O
(C x32 (Some (W x78 xdf x38 x03 xf6 x3a x5c x80)) O
O)))
O)
O)
(C x31 (Some (W xf2 x75 x3a x0a x75 x13 xc1 x15)) (C x5f None (C x30 None (C x30 (Some (W xaf x8d x5e xb8 xea x32 x27 xa9)) O
(C x31 (Some (W xfc x8b x5e xb8 xea x31 x27 xa9)) O
(C x32 (Some (W x15 x91 x5e xb8 xea x34 x27 xa9)) O
O)))
O)
O)
(C x32 (Some (W x3f x74 x3a x0a x75 x12 xc1 x15)) (C x5f None (C x30 None (C x30 (Some (W x00 x78 xf4 x56 xe4 x28 x20 x7d)) O
(C x31 (Some (W xb3 x79 xf4 x56 xe4 x29 x20 x7d)) O
(C x32 (Some (W x66 x7b xf4 x56 xe4 x2a x20 x7d)) O
O)))
O)
O)
O)))
O)
O)
(C x37 (Some (W x63 x81 x5d x8e x65 x55 x6e x37)) (C x5f None (C x30 None (C x30 (Some (W xf4 x94 x48 x6b x7b x9e x5b x41)) (C x5f None (C x30 None (C x30 (Some (W xf9 x45 x78 x7f xb3 xda x03 xdb)) O
(C x31 (Some (W x46 x44 x78 x7f xb3 xd9 x03 xdb)) O
(C x32 (Some (W x93 x42 x78 x7f xb3 xd8 x03 xdb)) O
O)))
O)
O)
(C x31 (Some (W xa7 x96 x48 x6b x7b x9f x5b x41)) (C x5f None (C x30 None (C x30 (Some (W xa8 x06 xe1 xc8 xbe xe4 x85 xb0)) O
(C x31 (Some (W x5b x08 xe1 xc8 xbe xe5 x85 xb0)) O
(C x32 (Some (W x0e x0a xe1 xc8 xbe xe6 x85 xb0)) O
O)))
O)
O)
(C x32 (Some (W x5a x98 x48 x6b x7b xa0 x5b x41)) (C x5f None (C x30 None (C x30 (Some (W x17 x98 x4a xf0 xc3 xae x2d xb2)) O
(C x31 (Some (W x64 x96 x4a xf0 xc3 xad x2d xb2)) O
(C x32 (Some (W x7d x9b x4a xf0 xc3 xb0 x2d xb2)) O
O)))
O)
O)
O)))
O)
O)
(C x38 (Some (W x7a x97 x5d x8e x65 x62 x6e x37)) (C x5f None (C x30 None (C x30 (Some (W x77 xf9 x0b xeb xe6 xa0 x7b xd3)) (C x5f None (C x30 None (C x30 (Some (W x38 xa1 xc2 x54 x27 x07 xbf x34)) O
(C x31 (Some (W xeb xa2 xc2 x54 x27 x08 xbf x34)) O
(C x32 (Some (W x9e xa4 xc2 x54 x27 x09 xbf x34)) O
O)))
O)
O)
(C x31 (Some (W xc4 xf7 x0b xeb xe6 x9f x7b xd3)) (C x5f None (C x30 None (C x30 (Some (W xc9 xe0 x58 xb9 x1f x3d x59 xde)) O
(C x31 (Some (W x16 xdf x58 xb9 x1f x3c x59 xde)) O
(C x32 (Some (W x63 xdd x58 xb9 x1f x3b x59 xde)) O
O)))
O)
O)
(C x32 (Some (W xdd xfc x0b xeb xe6 xa2 x7b xd3)) (C x5f None (C x30 None (C x30 (Some (W x16 x59 xaa xc6 x37 x3b x2f x0d)) O
(C x31 (Some (W xc9 x5a xaa xc6 x37 x3c x2f x0d)) O
(C x32 (Some (W xb0 x55 xaa xc6 x37 x39 x2f x0d)) O
O)))
O)
O)
O)))
O)
O)
(C x39 (Some (W x2d x99 x5d x8e x65 x63 x6e x37)) (C x5f None (C x30 None (C x30 (Some (W xe6 xb1 x17 x34 xf2 x8a x90 xa8)) (C x5f None (C x30 None (C x30 (Some (W x53 x92 x46 x90 xa0 xd2 x81 xa9)) O
(C x31 (Some (W xa0 x90 x46 x90 xa0 xd1 x81 xa9)) O
(C x32 (Some (W xb9 x95 x46 x90 xa0 xd4 x81 xa9)) O
O)))
O)
O)
(C x31 (Some (W x99 xb3 x17 x34 xf2 x8b x90 xa8)) (C x5f None (C x30 None (C x30 (Some (W x62 xd6 x52 x9f xaa x1c x38 x54)) O
(C x31 (Some (W x15 xd8 x52 x9f xaa x1d x38 x54)) O
(C x32 (Some (W xfc xd2 x52 x9f xaa x1a x38 x54)) O
O)))
O)
O)
(C x32 (Some (W x80 xae x17 x34 xf2 x88 x90 xa8)) (C x5f None (C x30 None (C x30 (Some (W xf5 x2f x5e x92 x92 x1e xcf x25)) O
(C x31 (Some (W x42 x2e x5e x92 x92 x1d xcf x25)) O
(C x32 (Some (W x8f x2c x5e x92 x92 x1c xcf x25)) O
O)))
O)
O)
O)))
O)
O)
O))))))))))
(C x38 None (C x30 (Some (W x05 x83 x7d x8e x65 xdc x93 x37)) (C x5f None (C x30 None (C x30 (Some (W xfe x84 x31 xa4 x85 x32 x9e x1e)) (C x5f None (C x30 None (C x30 (Some (W x8b x36 x20 x00 xef xd1 x2c x78)) O
(C x31 (Some (W xd8 x34 x20 x00 xef xd0 x2c x78)) O
(C x32 (Some (W xf1 x39 x20 x00 xef xd3 x2c x78)) O
O)))
O)
O)
(C x31 (Some (W xb1 x86 x31 xa4 x85 x33 x9e x1e)) (C x5f None (C x30 None (C x30 (Some (W x3a xf7 x88 x49 xfa xdb xae x4d)) O
(C x31 (Some (W xed xf8 x88 x49 xfa xdc xae x4d)) O
(C x32 (Some (W xd4 xf3 x88 x49 xfa xd9 xae x4d)) O
O)))
O)
O)
(C x32 (Some (W x98 x81 x31 xa4 x85 x30 x9e x1e)) (C x5f None (C x30 None (C x30 (Some (W x2d xd4 x37 x02 xe1 x1d x7a xf4)) O
(C x31 (Some (W x7a xd2 x37 x02 xe1 x1c x7a xf4)) O
(C x32 (Some (W xc7 xd0 x37 x02 xe1 x1b x7a xf4)) O
O)))
O)
O)
O)))
O)
O)
(C x31 (Some (W x52 x81 x7d x8e x65 xdb x93 x37)) (C x5f None (C x30 None (C x30 (Some (W xcf x9d xc9 x5a x7a xa8 x1c x49)) (C x5f None (C x30 None (C x30 (Some (W x10 xd9 x66 x1b x32 x42 x42 x97)) O
(C x31 (Some (W xc3 xda x66 x1b x32 x43 x42 x97)) O
(C x32 (Some (W x76 xdc x66 x1b x32 x44 x42 x97)) O
O)))
O)
O)
(C x31 (Some (W x1c x9c xc9 x5a x7a xa7 x1c x49)) (C x5f None (C x30 None (C x30 (Some (W x21 xf2 x58 xba x2b xd8 xa7 x6b)) O
(C x31 (Some (W x6e xf0 x58 xba x2b xd7 xa7 x6b)) O
(C x32 (Some (W xbb xee x58 xba x2b xd6 xa7 x6b)) O
O)))
O)
O)
(C x32 (Some (W x35 xa1 xc9 x5a x7a xaa x1c x49)) (C x5f None (C x30 None (C x30 (Some (W x2e x15 xaa x01 x45 x96 xdc xc4)) O
(C x31 (Some (W xe1 x16 xaa x01 x45 x97 xdc xc4)) O
(C x32 (Some (W xc8 x11 xaa x01 x45 x94 xdc xc4)) O
O)))
O)
O)
O)))
O)
O)
(C x32 (Some (W x9f x7f x7d x8e x65 xda x93 x37)) (C x5f None (C x30 None (C x30 (Some (W x20 x88 x5f xf9 x73 x9e x15 x1d)) (C x5f None (C x30 None (C x30 (Some (W x55 xab x61 x83 x3a x81 x42 xa6)) O
(C x31 (Some (W xa2 xa9 x61 x83 x3a x80 x42 xa6)) O
(C x32 (Some (W xef xa7 x61 x83 x3a x7f x42 xa6)) O
O)))
O)
O)
(C x31 (Some (W xd3 x89 x5f xf9 x73 x9f x15 x1d)) (C x5f None (C x30 None (C x30 (Some (W x64 x44 x6f xaa x3f xcb x7d xa7)) O
(C x31 (Some (W x17 x46 x6f xaa x3f xcc x7d xa7)) O
(C x32 (Some (W xca x47 x6f xaa x3f xcd x7d xa7)) O
O)))
O)
O)
(C x32 (Some (W x86 x8b x5f xf9 x73 xa0 x15 x1d)) (C x5f None (C x30 None (C x30 (Some (W xb3 xce xd7 xf3 x4a xb5 xff x7c)) O
(C x31 (Some (W x00 xcd xd7 xf3 x4a xb4 xff x7c)) O
(C x32 (Some (W x19 xd2 xd7 xf3 x4a xb7 xff x7c)) O
O)))
O)
O)
O)))
O)
O)
(C x33 (Some (W xec x7d x7d x8e x65 xd9 x93 x37)) (C x5f None (C x30 None (C x30 (Some (W x71 x0c xe1 xe8 x69 xf4 xab x70)) (C x5f None (C x30 None (C x30 (Some (W xfa x78 xbc x8d x10 xa9 x93 xad)) O
(C x31 (Some (W xad x7a xbc x8d x10 xaa x93 xad)) O
(C x32 (Some (W x94 x75 xbc x8d x10 xa7 x93 xad)) O
O)))
O)
O)
(C x31 (Some (W xbe x0a xe1 xe8 x69 xf3 xab x70)) (C x5f None (C x30 None (C x30 (Some (W x4b x63 x52 x2c x0a x9f x8c x81)) O
(C x31 (Some (W x98 x61 x52 x2c x0a x9e x8c x81)) O
(C x32 (Some (W xb1 x66 x52 x2c x0a xa1 x8c x81)) O
O)))
O)
O)
(C x32 (Some (W x0b x09 xe1 xe8 x69 xf2 xab x70)) (C x5f None (C x30 None (C x30 (Some (W x3c xe0 xd3 x8f x02 xd5 xe0 x29)) O
(C x31 (Some (W xef xe1 xd3 x8f x02 xd6 xe0 x29)) O
(C x32 (Some (W xa2 xe3 xd3 x8f x02 xd7 xe0 x29)) O
O)))
O)
O)
O)))
O)
O)
(C x34 (Some (W x39 x7c x7d x8e x65 xd8 x93 x37)) (C x5f None (C x30 None (C x30 (Some (W x42 xd0 x77 x87 x63 x6a xa5 x44)) (C x5f None (C x30 None (C x30 (Some (W x7f x0f x3a x9c x41 xcc xbf x64)) O
(C x31 (Some (W xcc x0d x3a x9c x41 xcb xbf x64)) O
(C x32 (Some (W xe5 x12 x3a x9c x41 xce xbf x64)) O
O)))
O)
O)
(C x31 (Some (W xf5 xd1 x77 x87 x63 x6b xa5 x44)) (C x5f None (C x30 None (C x30 (Some (W xee xcf xa3 x37 x49 x96 x25 xbb)) O
(C x31 (Some (W xa1 xd1 xa3 x37 x49 x97 x25 xbb)) O
(C x32 (Some (W x88 xcc xa3 x37 x49 x94 x25 xbb)) O
O)))
O)
O)
(C x32 (Some (W xdc xcc x77 x87 x63 x68 xa5 x44)) (C x5f None (C x30 None (C x30 (Some (W xe1 xac x52 xf0 x2f xd8 xf0 x61)) O
(C x31 (Some (W x2e xab x52 xf0 x2f xd7 xf0 x61)) O
(C x32 (Some (W x7b xa9 x52 xf0 x2f xd6 xf0 x61)) O
O)))
O)
O)
O)))
O)
O)
(C x35 (Some (W x86 x7a x7d x8e x65 xd7 x93 x37)) (C x5f None (C x30 None (C x30 (Some (W xb3 x73 xf8 xea x5b x20 xf9 xec)) (C x5f None (C x30 None (C x30 (Some (W x84 x49 x78 xc1 x88 x4c x42 x62)) O
(C x31 (Some (W x37 x4b x78 xc1 x88 x4d x42 x62)) O
(C x32 (Some (W xea x4c x78 xc1 x88 x4e x42 x62)) O
O)))
O)
O)
(C x31 (Some (W x00 x72 xf8 xea x5b x1f xf9 xec)) (C x5f None (C x30 None (C x30 (Some (W x75 xc6 xf9 x24 x81 x82 x96 x0a)) O
(C x31 (Some (W xc2 xc4 xf9 x24 x81 x81 x96 x0a)) O
(C x32 (Some (W x0f xc3 xf9 x24 x81 x80 x96 x0a)) O
O)))
O)
O)
(C x32 (Some (W x19 x77 xf8 xea x5b x22 xf9 xec)) (C x5f None (C x30 None (C x30 (Some (W xe2 x6c xee x31 x99 x80 xff x38)) O
(C x31 (Some (W x95 x6e xee x31 x99 x81 xff x38)) O
(C x32 (Some (W x7c x69 xee x31 x99 x7e xff x38)) O
O)))
O)
O)
O)))
O)
O)
(C x36 (Some (W xd3 x78 x7d x8e x65 xd6 x93 x37)) (C x5f None (C x30 None (C x30 (Some (W x64 xe9 x8f xa1 x50 x36 x77 x17)) (C x5f None (C x30 None (C x30 (Some (W xa9 x3d x51 x15 xa9 xf9 x72 x2f)) O
(C x31 (Some (W xf6 x3b x51 x15 xa9 xf8 x72 x2f)) O
(C x32 (Some (W x43 x3a x51 x15 xa9 xf7 x72 x2f)) O
O)))
O)
O)
(C x31 (Some (W x17 xeb x8f xa1 x50 x37 x77 x17)) (C x5f None (C x30 None (C x30 (Some (W x18 x7a xb9 x24 xb3 xc3 x95 xda)) O
(C x31 (Some (W xcb x7b xb9 x24 xb3 xc4 x95 xda)) O
(C x32 (Some (W x7e x7d xb9 x24 xb3 xc5 x95 xda)) O
O)))
O)
O)
(C x32 (Some (W xca xec x8f xa1 x50 x38 x77 x17)) (C x5f None (C x30 None (C x30 (Some (W xc7 x8f x23 x86 xb9 xcd x9c x06)) O
(C x31 (Some (W x14 x8e x23 x86 xb9 xcc x9c x06)) O
(C x32 (Some (W x2d x93 x23 x86 xb9 xcf x9c x06)) O
O)))
O)
O)
O)))
O)
O)
(C x37 (Some (W x20 x77 x7d x8e x65 xd5 x93 x37)) (C x5f None (C x30 None (C x30 (Some (W x55 x50 x82 x7a x4b xec x3b x16)) (C x5f None (C x30 None (C x30 (Some (W x8e x1c xf1 x80 xce x2c xeb x76)) O
(C x31 (Some (W x41 x1e xf1 x80 xce x2d xeb x76)) O
(C x32 (Some (W x28 x19 xf1 x80 xce x2a xeb x76)) O
O)))
O)
O)
(C x31 (Some (W xa2 x4e x82 x7a x4b xeb x3b x16)) (C x5f None (C x30 None (C x30 (Some (W x9f xb1 x86 x59 xc9 xe2 x42 x75)) O
(C x31 (Some (W xec xaf x86 x59 xc9 xe1 x42 x75)) O
(C x32 (Some (W x05 xb5 x86 x59 xc9 xe4 x42 x75)) O
O)))
O)
O)
(C x32 (Some (W xef x4c x82 x7a x4b xea x3b x16)) (C x5f None (C x30 None (C x30 (Some (W xf0 xf0 x1d x10 xbe xd8 xc0 x9f)) O
(C x31 (Some (W xa3 xf2 x1d x10 xbe xd9 xc0 x9f)) O
(C x32 (Some (W x56 xf4 x1d x10 xbe xda xc0 x9f)) O
O)))
O)
O)
O)))
O)
O)
(C x38 (Some (W x9d x90 x7d x8e x65 xe4 x93 x37)) (C x5f None (C x30 None (C x30 (Some (W xd6 xdf x5f x6a xc7 xa2 xac x7e)) (C x5f None (C x30 None (C x30 (Some (W xc3 x27 xfe x06 xc0 x35 xe8 xd0)) O
(C x31 (Some (W x10 x26 xfe x06 xc0 x34 xe8 xd0)) O
(C x32 (Some (W x29 x2b xfe x06 xc0 x37 xe8 xd0)) O
O)))
O)
O)
(C x31 (Some (W x89 xe1 x5f x6a xc7 xa3 xac x7e)) (C x5f None (C x30 None (C x30 (Some (W x92 x16 x0a x50 xcb x3f xfd xa5)) O
(C x31 (Some (W x45 x18 x0a x50 xcb x40 xfd xa5)) O
(C x32 (Some (W x2c x13 x0a x50 xcb x3d xfd xa5)) O
O)))
O)
O)
(C x32 (Some (W x70 xdc x5f x6a xc7 xa0 xac x7e)) (C x5f None (C x30 None (C x30 (Some (W x65 x96 x15 x95 xaf x81 x77 xf8)) O
(C x31 (Some (W xb2 x94 x15 x95 xaf x80 x77 xf8)) O
(C x32 (Some (W xff x92 x15 x95 xaf x7f x77 xf8)) O
O)))
O)
O)
O)))
O)
O)
(C x39 (Some (W xea x8e x7d x8e x65 xe3 x93 x37)) (C x5f None (C x30 None (C x30 (Some (W x27 xd2 x53 x5b xbd x78 xf6 xd3)) (C x5f None (C x30 None (C x30 (Some (W x28 xc5 xea xf5 x05 xb7 xda x00)) O
(C x31 (Some (W xdb xc6 xea xf5 x05 xb8 xda x00)) O
(C x32 (Some (W x8e xc8 xea xf5 x05 xb9 xda x00)) O
O)))
O)
O)
(C x31 (Some (W x74 xd0 x53 x5b xbd x77 xf6 xd3)) (C x5f None (C x30 None (C x30 (Some (W x79 x04 x82 xac xfa xac x58 x2b)) O
(C x31 (Some (W xc6 x02 x82 xac xfa xab x58 x2b)) O
(C x32 (Some (W x13 x01 x82 xac xfa xaa x58 x2b)) O
O)))
O)
O)
(C x32 (Some (W x8d xd5 x53 x5b xbd x7a xf6 xd3)) (C x5f None (C x30 None (C x30 (Some (W x06 x7d xd2 x67 x16 xeb x4a xd9)) O
(C x31 (Some (W xb9 x7e xd2 x67 x16 xec x4a xd9)) O
(C x32 (Some (W xa0 x79 xd2 x67 x16 xe9 x4a xd9)) O
O)))
O)
O)
O)))
O)
O)
O))))))))))
(C x39 None (C x30 (Some (W x7c x69 x7a x8e x65 x56 x90 x37)) (C x5f None (C x30 None (C x30 (Some (W x41 xae x1f x0a x4d xd4 xfb x2e)) (C x5f None (C x30 None (C x30 (Some (W xca x28 x72 xc6 xcf xfa x5a x1e)) O
(C x31 (Some (W x7d x2a x72 xc6 xcf xfb x5a x1e)) O
(C x32 (Some (W x64 x25 x72 xc6 xcf xf8 x5a x1e)) O
O)))
O)
O)
(C x31 (Some (W x8e xac x1f x0a x4d xd3 xfb x2e)) (C x5f None (C x30 None (C x30 (Some (W x9b xec x08 x65 xc9 x70 x54 xf2)) O
(C x31 (Some (W xe8 xea x08 x65 xc9 x6f x54 xf2)) O
(C x32 (Some (W x01 xf0 x08 x65 xc9 x72 x54 xf2)) O
O)))
O)
O)
(C x32 (Some (W xdb xaa x1f x0a x4d xd2 xfb x2e)) (C x5f None (C x30 None (C x30 (Some (W x4c x24 xfc x1b xbe xe6 x3e x1d)) O
(C x31 (Some (W xff x25 xfc x1b xbe xe7 x3e x1d)) O
(C x32 (Some (W xb2 x27 xfc x1b xbe xe8 x3e x1d)) O
O)))
O)
O)
O)))
O)
O)
(C x31 (Some (W x2f x6b x7a x8e x65 x57 x90 x37)) (C x5f None (C x30 None (C x30 (Some (W x30 xfb x9c x54 x58 xbe xc3 x05)) (C x5f None (C x30 None (C x30 (Some (W x25 xf6 xaa xe3 x88 x1b xee x14)) O
(C x31 (Some (W x72 xf4 xaa xe3 x88 x1a xee x14)) O
(C x32 (Some (W xbf xf2 xaa xe3 x88 x19 xee x14)) O
O)))
O)
O)
(C x31 (Some (W xe3 xfc x9c x54 x58 xbf xc3 x05)) (C x5f None (C x30 None (C x30 (Some (W x74 x13 xb9 x44 x8f xa5 x88 x40)) O
(C x31 (Some (W x27 x15 xb9 x44 x8f xa6 x88 x40)) O
(C x32 (Some (W xda x16 xb9 x44 x8f xa7 x88 x40)) O
O)))
O)
O)
(C x32 (Some (W x96 xfe x9c x54 x58 xc0 xc3 x05)) (C x5f None (C x30 None (C x30 (Some (W x83 x87 x93 x55 x99 xcf x5e xed)) O
(C x31 (Some (W xd0 x85 x93 x55 x99 xce x5e xed)) O
(C x32 (Some (W xe9 x8a x93 x55 x99 xd1 x5e xed)) O
O)))
O)
O)
O)))
O)
O)
(C x32 (Some (W xe2 x6c x7a x8e x65 x58 x90 x37)) (C x5f None (C x30 None (C x30 (Some (W xdf x10 x07 xb6 x5e xc8 xca x31)) (C x5f None (C x30 None (C x30 (Some (W x60 xb8 x21 x7d x80 xdc xa0 x07)) O
(C x31 (Some (W x13 xba x21 x7d x80 xdd xa0 x07)) O
(C x32 (Some (W xc6 xbb x21 x7d x80 xde xa0 x07)) O
O)))
O)
O)
(C x31 (Some (W x2c x0f x07 xb6 x5e xc7 xca x31)) (C x5f None (C x30 None (C x30 (Some (W xb1 xe7 xa1 x54 x7b x32 xb2 x04)) O
(C x31 (Some (W xfe xe5 xa1 x54 x7b x31 xb2 x04)) O
(C x32 (Some (W x4b xe4 xa1 x54 x7b x30 xb2 x04)) O
O)))
O)
O)
(C x32 (Some (W x45 x14 x07 xb6 x5e xca xca x31)) (C x5f None (C x30 None (C x30 (Some (W x3e xb5 xf3 x27 x92 x70 x29 x09)) O
(C x31 (Some (W xf1 xb6 xf3 x27 x92 x71 x29 x09)) O
(C x32 (Some (W xd8 xb1 xf3 x27 x92 x6e x29 x09)) O
O)))
O)
O)
O)))
O)
O)
(C x33 (Some (W x95 x6e x7a x8e x65 x59 x90 x37)) (C x5f None (C x30 None (C x30 (Some (W xce x26 x70 xc5 x68 x12 xee xdc)) (C x5f None (C x30 None (C x30 (Some (W xdb xbf xd6 x38 xae xa3 xf4 xe8)) O
(C x31 (Some (W x28 xbe xd6 x38 xae xa2 xf4 xe8)) O
(C x32 (Some (W x41 xc3 xd6 x38 xae xa5 xf4 xe8)) O
O)))
O)
O)
(C x31 (Some (W x81 x28 x70 xc5 x68 x13 xee xdc)) (C x5f None (C x30 None (C x30 (Some (W x0a xa7 x3e x82 xb9 x2d x76 xbe)) O
(C x31 (Some (W xbd xa8 x3e x82 xb9 x2e x76 xbe)) O
(C x32 (Some (W xa4 xa3 x3e x82 xb9 x2b x76 xbe)) O
O)))
O)
O)
(C x32 (Some (W x68 x23 x70 xc5 x68 x10 xee xdc)) (C x5f None (C x30 None (C x30 (Some (W x7d x2e xee xc6 x9d xef x83 x10)) O
(C x31 (Some (W xca x2c xee xc6 x9d xee x83 x10)) O
(C x32 (Some (W x17 x2b xee xc6 x9d xed x83 x10)) O
O)))
O)
O)
O)))
O)
O)
(C x34 (Some (W xb0 x62 x7a x8e x65 x52 x90 x37)) (C x5f None (C x30 None (C x30 (Some (W xa5 x18 xc0 x9b x2e x4c x8b xd4)) (C x5f None (C x30 None (C x30 (Some (W xde x6d x39 x14 x65 xfa xcc x40)) O
(C x31 (Some (W x91 x6f x39 x14 x65 xfb xcc x40)) O
(C x32 (Some (W x78 x6a x39 x14 x65 xf8 xcc x40)) O
O)))
O)
O)
(C x31 (Some (W xf2 x16 xc0 x9b x2e x4b x8b xd4)) (C x5f None (C x30 None (C x30 (Some (W xaf x18 x5f xc9 x59 xf0 x97 x69)) O
(C x31 (Some (W xfc x16 x5f xc9 x59 xef x97 x69)) O
(C x32 (Some (W x15 x1c x5f xc9 x59 xf2 x97 x69)) O
O)))
O)
O)
(C x32 (Some (W x3f x15 xc0 x9b x2e x4a x8b xd4)) (C x5f None (C x30 None (C x30 (Some (W x00 x03 xf5 x67 x53 xe6 x90 x3d)) O
(C x31 (Some (W xb3 x04 xf5 x67 x53 xe7 x90 x3d)) O
(C x32 (Some (W x66 x06 xf5 x67 x53 xe8 x90 x3d)) O
O)))
O)
O)
O)))
O)
O)
(C x35 (Some (W x63 x64 x7a x8e x65 x53 x90 x37)) (C x5f None (C x30 None (C x30 (Some (W xf4 x35 xce xfc x34 xd6 x25 x00)) (C x5f None (C x30 None (C x30 (Some (W xf9 xd0 x78 x90 x22 x98 x74 x9b)) O
(C x31 (Some (W x46 xcf x78 x90 x22 x97 x74 x9b)) O
(C x32 (Some (W x93 xcd x78 x90 x22 x96 x74 x9b)) O
O)))
O)
O)
(C x31 (Some (W xa7 x37 xce xfc x34 xd7 x25 x00)) (C x5f None (C x30 None (C x30 (Some (W xa8 x91 xe1 xd9 x2d xa2 xf6 x70)) O
(C x31 (Some (W x5b x93 xe1 xd9 x2d xa3 xf6 x70)) O
(C x32 (Some (W x0e x95 xe1 xd9 x2d xa4 xf6 x70)) O
O)))
O)
O)
(C x32 (Some (W x5a x39 xce xfc x34 xd8 x25 x00)) (C x5f None (C x30 None (C x30 (Some (W x17 x23 x4b x01 x33 x6c x9e x72)) O
(C x31 (Some (W x64 x21 x4b x01 x33 x6b x9e x72)) O
(C x32 (Some (W x7d x26 x4b x01 x33 x6e x9e x72)) O
O)))
O)
O)
O)))
O)
O)
(C x36 (Some (W x16 x66 x7a x8e x65 x54 x90 x37)) (C x5f None (C x30 None (C x30 (Some (W x03 xaa xa8 x0d x3f x00 xfc xac)) (C x5f None (C x30 None (C x30 (Some (W xd4 x2a xe3 xa1 x86 x33 x7b x2a)) O
(C x31 (Some (W x87 x2c xe3 xa1 x86 x34 x7b x2a)) O
(C x32 (Some (W x3a x2e xe3 xa1 x86 x35 x7b x2a)) O
O)))
O)
O)
(C x31 (Some (W x50 xa8 xa8 x0d x3f xff xfb xac)) (C x5f None (C x30 None (C x30 (Some (W x85 xa7 x65 x57 x7b x29 xb3 x53)) O
(C x31 (Some (W xd2 xa5 x65 x57 x7b x28 xb3 x53)) O
(C x32 (Some (W x1f xa4 x65 x57 x7b x27 xb3 x53)) O
O)))
O)
O)
(C x32 (Some (W x69 xad xa8 x0d x3f x02 xfc xac)) (C x5f None (C x30 None (C x30 (Some (W x32 x8d xcb x9f x94 xe7 x2d xae)) O
(C x31 (Some (W xe5 x8e xcb x9f x94 xe8 x2d xae)) O
(C x32 (Some (W xcc x89 xcb x9f x94 xe5 x2d xae)) O
O)))
O)
O)
O)))
O)
O)
(C x37 (Some (W xc9 x67 x7a x8e x65 x55 x90 x37)) (C x5f None (C x30 None (C x30 (Some (W xd2 xed xb5 x6e x45 x0a x96 xd8)) (C x5f None (C x30 None (C x30 (Some (W x4f x17 xa1 x03 x19 xcd x39 x88)) O
(C x31 (Some (W x9c x15 xa1 x03 x19 xcc x39 x88)) O
(C x32 (Some (W xb5 x1a xa1 x03 x19 xcf x39 x88)) O
O)))
O)
O)
(C x31 (Some (W x85 xef xb5 x6e x45 x0b x96 xd8)) (C x5f None (C x30 None (C x30 (Some (W x7e xfe x08 x4d x24 x57 xbb x5d)) O
(C x31 (Some (W x31 x00 x09 x4d x24 x58 xbb x5d)) O
(C x32 (Some (W x18 xfb x08 x4d x24 x55 xbb x5d)) O
O)))
O)
O)
(C x32 (Some (W x6c xea xb5 x6e x45 x08 x96 xd8)) (C x5f None (C x30 None (C x30 (Some (W xf1 x85 xb8 x91 x08 x19 xc9 xaf)) O
(C x31 (Some (W x3e x84 xb8 x91 x08 x18 xc9 xaf)) O
(C x32 (Some (W x8b x82 xb8 x91 x08 x17 xc9 xaf)) O
O)))
O)
O)
O)))
O)
O)
(C x38 (Some (W x14 x77 x7a x8e x65 x5e x90 x37)) (C x5f None (C x30 None (C x30 (Some (W xd9 x2f x4c x7e x92 x04 x26 x0e)) (C x5f None (C x30 None (C x30 (Some (W xa2 xff x69 xed xa6 xc0 xbf xbf)) O
(C x31 (Some (W x55 x01 x6a xed xa6 xc1 xbf xbf)) O
(C x32 (Some (W x3c xfc x69 xed xa6 xbe xbf xbf)) O
O)))
O)
O)
(C x31 (Some (W x26 x2e x4c x7e x92 x03 x26 x0e)) (C x5f None (C x30 None (C x30 (Some (W x93 x66 x5c xc6 xa1 x76 x84 xbe)) O
(C x31 (Some (W xe0 x64 x5c xc6 xa1 x75 x84 xbe)) O
(C x32 (Some (W xf9 x69 x5c xc6 xa1 x78 x84 xbe)) O
O)))
O)
O)
(C x32 (Some (W x73 x2c x4c x7e x92 x02 x26 x0e)) (C x5f None (C x30 None (C x30 (Some (W x44 xdc xf3 x7c x96 x8c x02 xe9)) O
(C x31 (Some (W xf7 xdd xf3 x7c x96 x8d x02 xe9)) O
(C x32 (Some (W xaa xdf xf3 x7c x96 x8e x02 xe9)) O
O)))
O)
O)
O)))
O)
O)
(C x39 (Some (W xc7 x78 x7a x8e x65 x5f x90 x37)) (C x5f None (C x30 None (C x30 (Some (W x08 xda x27 xe1 x98 x0e xe0 x3b)) (C x5f None (C x30 None (C x30 (Some (W xdd x77 xf0 x50 xe3 x76 x2a xde)) O
(C x31 (Some (W x2a x76 xf0 x50 xe3 x75 x2a xde)) O
(C x32 (Some (W x77 x74 xf0 x50 xe3 x74 x2a xde)) O
O)))
O)
O)
(C x31 (Some (W xbb xdb x27 xe1 x98 x0f xe0 x3b)) (C x5f None (C x30 None (C x30 (Some (W xec x01 x5a xec xea x20 x90 x34)) O
(C x31 (Some (W x9f x03 x5a xec xea x21 x90 x34)) O
(C x32 (Some (W x52 x05 x5a xec xea x22 x90 x34)) O
O)))
O)
O)
(C x32 (Some (W x6e xdd x27 xe1 x98 x10 xe0 x3b)) (C x5f None (C x30 None (C x30 (Some (W x3b xda xd8 x4e xf1 x2a xdd x61)) O
(C x31 (Some (W x88 xd8 xd8 x4e xf1 x29 xdd x61)) O
(C x32 (Some (W xa1 xdd xd8 x4e xf1 x2c xdd x61)) O
O)))
O)
O)
O)))
O)
O)
O))))))))))
O))))))))))
O)
O)
(C x72 None (C x61 None (C x5f None (C x30 None (C x30 (Some (W x53 xf2 x43 x43 xbe x46 xbd x51)) O
(C x31 (Some (W xa0 xf0 x43 x43 xbe x45 xbd x51)) O
(C x32 (Some (W xb9 xf5 x43 x43 xbe x48 xbd x51)) O
(C x33 (Some (W x06 xf4 x43 x43 xbe x47 xbd x51)) O
(C x34 (Some (W x1f xf9 x43 x43 xbe x4a xbd x51)) O
(C x35 (Some (W x6c xf7 x43 x43 xbe x49 xbd x51)) O
(C x36 (Some (W x85 xfc x43 x43 xbe x4c xbd x51)) O
(C x37 (Some (W xd2 xfa x43 x43 xbe x4b xbd x51)) O
(C x38 (Some (W xeb xff x43 x43 xbe x4e xbd x51)) O
(C x39 (Some (W x38 xfe x43 x43 xbe x4d xbd x51)) O
O))))))))))
(C x31 None (C x30 (Some (W x2a x0f x41 x43 xbe xe0 xb9 x51)) (C x30 (Some (W x2e xa9 x8c x47 x4c xfd xe7 x1f)) O
(C x31 (Some (W xe1 xaa x8c x47 x4c xfe xe7 x1f)) O
(C x32 (Some (W xc8 xa5 x8c x47 x4c xfb xe7 x1f)) O
(C x33 (Some (W x7b xa7 x8c x47 x4c xfc xe7 x1f)) O
(C x34 (Some (W xfa xaf x8c x47 x4c x01 xe8 x1f)) O
(C x35 (Some (W xad xb1 x8c x47 x4c x02 xe8 x1f)) O
(C x36 (Some (W x94 xac x8c x47 x4c xff xe7 x1f)) O
(C x37 (Some (W x47 xae x8c x47 x4c x00 xe8 x1f)) O
(C x38 (Some (W x96 x9b x8c x47 x4c xf5 xe7 x1f)) O
(C x39 (Some (W x49 x9d x8c x47 x4c xf6 xe7 x1f)) O
O))))))))))
(C x31 (Some (W xdd x10 x41 x43 xbe xe1 xb9 x51)) (C x30 (Some (W xb7 xc2 x8f x47 x4c x83 xeb x1f)) O
(C x31 (Some (W x04 xc1 x8f x47 x4c x82 xeb x1f)) O
(C x32 (Some (W x1d xc6 x8f x47 x4c x85 xeb x1f)) O
(C x33 (Some (W x6a xc4 x8f x47 x4c x84 xeb x1f)) O
(C x34 (Some (W xeb xbb x8f x47 x4c x7f xeb x1f)) O
(C x35 (Some (W x38 xba x8f x47 x4c x7e xeb x1f)) O
(C x36 (Some (W x51 xbf x8f x47 x4c x81 xeb x1f)) O
(C x37 (Some (W x9e xbd x8f x47 x4c x80 xeb x1f)) O
(C x38 (Some (W x1f xb5 x8f x47 x4c x7b xeb x1f)) O
(C x39 (Some (W x6c xb3 x8f x47 x4c x7a xeb x1f)) O
O))))))))))
(C x32 (Some (W xc4 x0b x41 x43 xbe xde xb9 x51)) (C x30 (Some (W x9c x4f x87 x47 x4c x71 xe1 x1f)) O
(C x31 (Some (W x4f x51 x87 x47 x4c x72 xe1 x1f)) O
(C x32 (Some (W x02 x53 x87 x47 x4c x73 xe1 x1f)) O
(C x33 (Some (W xb5 x54 x87 x47 x4c x74 xe1 x1f)) O
(C x34 (Some (W xd0 x48 x87 x47 x4c x6d xe1 x1f)) O
(C x35 (Some (W x83 x4a x87 x47 x4c x6e xe1 x1f)) O
(C x36 (Some (W x36 x4c x87 x47 x4c x6f xe1 x1f)) O
(C x37 (Some (W xe9 x4d x87 x47 x4c x70 xe1 x1f)) O
(C x38 (Some (W x34 x5d x87 x47 x4c x79 xe1 x1f)) O
(C x39 (Some (W xe7 x5e x87 x47 x4c x7a xe1 x1f)) O
O))))))))))
(C x33 (Some (W x77 x0d x41 x43 xbe xdf xb9 x51)) (C x30 (Some (W xa5 x8f x89 x47 x4c x77 xe4 x1f)) O
(C x31 (Some (W xf2 x8d x89 x47 x4c x76 xe4 x1f)) O
(C x32 (Some (W x3f x8c x89 x47 x4c x75 xe4 x1f)) O
(C x33 (Some (W x8c x8a x89 x47 x4c x74 xe4 x1f)) O
(C x34 (Some (W xd9 x88 x89 x47 x4c x73 xe4 x1f)) O
(C x35 (Some (W x26 x87 x89 x47 x4c x72 xe4 x1f)) O
(C x36 (Some (W x73 x85 x89 x47 x4c x71 xe4 x1f)) O
(C x37 (Some (W xc0 x83 x89 x47 x4c x70 xe4 x1f)) O
(C x38 (Some (W x3d x9d x89 x47 x4c x7f xe4 x1f)) O
(C x39 (Some (W x8a x9b x89 x47 x4c x7e xe4 x1f)) O
O))))))))))
(C x34 (Some (W x5e x08 x41 x43 xbe xdc xb9 x51)) (C x30 (Some (W xea x52 x81 x47 x4c x85 xda x1f)) O
(C x31 (Some (W x9d x54 x81 x47 x4c x86 xda x1f)) O
(C x32 (Some (W x84 x4f x81 x47 x4c x83 xda x1f)) O
(C x33 (Some (W x37 x51 x81 x47 x4c x84 xda x1f)) O
(C x34 (Some (W x1e x4c x81 x47 x4c x81 xda x1f)) O
(C x35 (Some (W xd1 x4d x81 x47 x4c x82 xda x1f)) O
(C x36 (Some (W xb8 x48 x81 x47 x4c x7f xda x1f)) O
(C x37 (Some (W x6b x4a x81 x47 x4c x80 xda x1f)) O
(C x38 (Some (W x52 x45 x81 x47 x4c x7d xda x1f)) O
(C x39 (Some (W x05 x47 x81 x47 x4c x7e xda x1f)) O
O))))))))))
(C x35 (Some (W x11 x0a x41 x43 xbe xdd xb9 x51)) O
(C x36 (Some (W xf8 x04 x41 x43 xbe xda xb9 x51)) O
(C x37 (Some (W xab x06 x41 x43 xbe xdb xb9 x51)) O
(C x38 (Some (W x92 x01 x41 x43 xbe xd8 xb9 x51)) O
(C x39 (Some (W x45 x03 x41 x43 xbe xd9 xb9 x51)) O
O))))))))))
(C x32 None (C x30 (Some (W xa1 xf5 x3d x43 xbe x5a xb6 x51)) O
(C x31 (Some (W xee xf3 x3d x43 xbe x59 xb6 x51)) O
(C x32 (Some (W x3b xf2 x3d x43 xbe x58 xb6 x51)) O
(C x33 (Some (W x88 xf0 x3d x43 xbe x57 xb6 x51)) O
(C x34 (Some (W x6d xfc x3d x43 xbe x5e xb6 x51)) O
(C x35 (Some (W xba xfa x3d x43 xbe x5d xb6 x51)) O
(C x36 (Some (W x07 xf9 x3d x43 xbe x5c xb6 x51)) O
(C x37 (Some (W x54 xf7 x3d x43 xbe x5b xb6 x51)) O
(C x38 (Some (W x09 xe8 x3d x43 xbe x52 xb6 x51)) O
(C x39 (Some (W x56 xe6 x3d x43 xbe x51 xb6 x51)) O
O))))))))))
(C x33 None (C x30 (Some (W x18 xdc x3a x43 xbe xd4 xb2 x51)) O
(C x31 (Some (W xcb xdd x3a x43 xbe xd5 xb2 x51)) O
(C x32 (Some (W x7e xdf x3a x43 xbe xd6 xb2 x51)) O
(C x33 (Some (W x31 xe1 x3a x43 xbe xd7 xb2 x51)) O
(C x34 (Some (W xe4 xe2 x3a x43 xbe xd8 xb2 x51)) O
(C x35 (Some (W x97 xe4 x3a x43 xbe xd9 xb2 x51)) O
(C x36 (Some (W x4a xe6 x3a x43 xbe xda xb2 x51)) O
(C x37 (Some (W xfd xe7 x3a x43 xbe xdb xb2 x51)) O
(C x38 (Some (W x80 xce x3a x43 xbe xcc xb2 x51)) O
(C x39 (Some (W x33 xd0 x3a x43 xbe xcd xb2 x51)) O
O))))))))))
(C x34 None (C x30 (Some (W xf7 x7e x4f x43 xbe xde xca x51)) O
(C x31 (Some (W x44 x7d x4f x43 xbe xdd xca x51)) O
(C x32 (Some (W x5d x82 x4f x43 xbe xe0 xca x51)) O
(C x33 (Some (W xaa x80 x4f x43 xbe xdf xca x51)) O
(C x34 (Some (W x2b x78 x4f x43 xbe xda xca x51)) O
(C x35 (Some (W x78 x76 x4f x43 xbe xd9 xca x51)) O
(C x36 (Some (W x91 x7b x4f x43 xbe xdc xca x51)) O
(C x37 (Some (W xde x79 x4f x43 xbe xdb xca x51)) O
(C x38 (Some (W x5f x71 x4f x43 xbe xd6 xca x51)) O
(C x39 (Some (W xac x6f x4f x43 xbe xd5 xca x51)) O
O))))))))))
(C x35 None (C x30 (Some (W x6e x65 x4c x43 xbe x58 xc7 x51)) O
(C x31 (Some (W x21 x67 x4c x43 xbe x59 xc7 x51)) O
(C x32 (Some (W x08 x62 x4c x43 xbe x56 xc7 x51)) O
(C x33 (Some (W xbb x63 x4c x43 xbe x57 xc7 x51)) O
(C x34 (Some (W x3a x6c x4c x43 xbe x5c xc7 x51)) O
(C x35 (Some (W xed x6d x4c x43 xbe x5d xc7 x51)) O
(C x36 (Some (W xd4 x68 x4c x43 xbe x5a xc7 x51)) O
(C x37 (Some (W x87 x6a x4c x43 xbe x5b xc7 x51)) O
(C x38 (Some (W xd6 x57 x4c x43 xbe x50 xc7 x51)) O
(C x39 (Some (W x89 x59 x4c x43 xbe x51 xc7 x51)) O
O))))))))))
(C x36 None (C x30 (Some (W xe5 x4b x49 x43 xbe xd2 xc3 x51)) O
(C x31 (Some (W x32 x4a x49 x43 xbe xd1 xc3 x51)) O
(C x32 (Some (W x7f x48 x49 x43 xbe xd0 xc3 x51)) O
(C x33 (Some (W xcc x46 x49 x43 xbe xcf xc3 x51)) O
(C x34 (Some (W x19 x45 x49 x43 xbe xce xc3 x51)) O
(C x35 (Some (W x66 x43 x49 x43 xbe xcd xc3 x51)) O
(C x36 (Some (W xb3 x41 x49 x43 xbe xcc xc3 x51)) O
(C x37 (Some (W x00 x40 x49 x43 xbe xcb xc3 x51)) O
(C x38 (Some (W x7d x59 x49 x43 xbe xda xc3 x51)) O
(C x39 (Some (W xca x57 x49 x43 xbe xd9 xc3 x51)) O
O))))))))))
(C x37 None (C x30 (Some (W xdc x0b x47 x43 xbe xcc xc0 x51)) O
(C x31 (Some (W x8f x0d x47 x43 xbe xcd xc0 x51)) O
(C x32 (Some (W x42 x0f x47 x43 xbe xce xc0 x51)) O
(C x33 (Some (W xf5 x10 x47 x43 xbe xcf xc0 x51)) O
(C x34 (Some (W x10 x05 x47 x43 xbe xc8 xc0 x51)) O
(C x35 (Some (W xc3 x06 x47 x43 xbe xc9 xc0 x51)) O
(C x36 (Some (W x76 x08 x47 x43 xbe xca xc0 x51)) O
(C x37 (Some (W x29 x0a x47 x43 xbe xcb xc0 x51)) O
(C x38 (Some (W x74 x19 x47 x43 xbe xd4 xc0 x51)) O
(C x39 (Some (W x27 x1b x47 x43 xbe xd5 xc0 x51)) O
O))))))))))
(C x38 None (C x30 (Some (W x4b x6c x2c x43 xbe xd6 xa1 x51)) O
(C x31 (Some (W x98 x6a x2c x43 xbe xd5 xa1 x51)) O
(C x32 (Some (W xb1 x6f x2c x43 xbe xd8 xa1 x51)) O
(C x33 (Some (W xfe x6d x2c x43 xbe xd7 xa1 x51)) O
(C x34 (Some (W x17 x73 x2c x43 xbe xda xa1 x51)) O
(C x35 (Some (W x64 x71 x2c x43 xbe xd9 xa1 x51)) O
(C x36 (Some (W x7d x76 x2c x43 xbe xdc xa1 x51)) O
(C x37 (Some (W xca x74 x2c x43 xbe xdb xa1 x51)) O
(C x38 (Some (W xb3 x5e x2c x43 xbe xce xa1 x51)) O
(C x39 (Some (W x00 x5d x2c x43 xbe xcd xa1 x51)) O
O))))))))))
(C x39 None (C x30 (Some (W x42 x2c x2a x43 xbe xd0 x9e x51)) O
(C x31 (Some (W xf5 x2d x2a x43 xbe xd1 x9e x51)) O
(C x32 (Some (W xdc x28 x2a x43 xbe xce x9e x51)) O
(C x33 (Some (W x8f x2a x2a x43 xbe xcf x9e x51)) O
(C x34 (Some (W x76 x25 x2a x43 xbe xcc x9e x51)) O
(C x35 (Some (W x29 x27 x2a x43 xbe xcd x9e x51)) O
(C x36 (Some (W x10 x22 x2a x43 xbe xca x9e x51)) O
(C x37 (Some (W xc3 x23 x2a x43 xbe xcb x9e x51)) O
(C x38 (Some (W xda x39 x2a x43 xbe xd8 x9e x51)) O
(C x39 (Some (W x8d x3b x2a x43 xbe xd9 x9e x51)) O
O))))))))))
O))))))))))
O)
(C x6f None (C x63 None (C x6b None (C x5f None (C x30 None (C x30 (Some (W xc7 x63 xa0 xb4 x4f x26 x63 xed)) (C x5f None (C x30 None (C x30 (Some (W x08 xd3 xa5 x08 xbd x42 xd1 x51)) (C x5f None (C x30 None (C x30 (Some (W xdd xca x23 x5e xc8 xc4 xe4 x5c)) O
(C x31 (Some (W x2a xc9 x23 x5e xc8 xc3 xe4 x5c)) O
(C x32 (Some (W x77 xc7 x23 x5e xc8 xc2 xe4 x5c)) O
O)))
O)
O)
(C x31 (Some (W xbb xd4 xa5 x08 xbd x43 xd1 x51)) (C x5f None (C x30 None (C x30 (Some (W xec x54 x8d xf9 xcf x6e x4a xb3)) O
(C x31 (Some (W x9f x56 x8d xf9 xcf x6f x4a xb3)) O
(C x32 (Some (W x52 x58 x8d xf9 xcf x70 x4a xb3)) O
O)))
O)
O)
(C x32 (Some (W x6e xd6 xa5 x08 xbd x44 xd1 x51)) (C x5f None (C x30 None (C x30 (Some (W x3b x2d x0c x5c xd6 x78 x97 xe0)) O
(C x31 (Some (W x88 x2b x0c x5c xd6 x77 x97 xe0)) O
(C x32 (Some (W xa1 x30 x0c x5c xd6 x7a x97 xe0)) O
O)))
O)
O)
O)))
O)
O)
(C x31 (Some (W x14 x62 xa0 xb4 x4f x25 x63 xed)) (C x5f None (C x30 None (C x30 (Some (W xd9 x28 xca xa5 xb6 x38 x17 x24)) (C x5f None (C x30 None (C x30 (Some (W xa2 x52 x9d xfa x8b x0e x7a x3e)) O
(C x31 (Some (W x55 x54 x9d xfa x8b x0f x7a x3e)) O
(C x32 (Some (W x3c x4f x9d xfa x8b x0c x7a x3e)) O
O)))
O)
O)
(C x31 (Some (W x26 x27 xca xa5 xb6 x37 x17 x24)) (C x5f None (C x30 None (C x30 (Some (W x93 xb9 x8f xd3 x86 xc4 x3e x3d)) O
(C x31 (Some (W xe0 xb7 x8f xd3 x86 xc3 x3e x3d)) O
(C x32 (Some (W xf9 xbc x8f xd3 x86 xc6 x3e x3d)) O
O)))
O)
O)
(C x32 (Some (W x73 x25 xca xa5 xb6 x36 x17 x24)) (C x5f None (C x30 None (C x30 (Some (W x44 x2f x27 x8a x7b xda xbc x67)) O
(C x31 (Some (W xf7 x30 x27 x8a x7b xdb xbc x67)) O
(C x32 (Some (W xaa x32 x27 x8a x7b xdc xbc x67)) O
O)))
O)
O)
O)))
O)
O)
(C x32 (Some (W x2d x67 xa0 xb4 x4f x28 x63 xed)) (C x5f None (C x30 None (C x30 (Some (W xe6 x4b x1b xed xcf xf6 x4b x7d)) (C x5f None (C x30 None (C x30 (Some (W x53 x70 x7a xae xf4 xdd xac xe8)) O
(C x31 (Some (W xa0 x6e x7a xae xf4 xdc xac xe8)) O
(C x32 (Some (W xb9 x73 x7a xae xf4 xdf xac xe8)) O
O)))
O)
O)
(C x31 (Some (W x99 x4d x1b xed xcf xf7 x4b x7d)) (C x5f None (C x30 None (C x30 (Some (W x62 xb4 x86 xbd xfe x27 x63 x93)) O
(C x31 (Some (W x15 xb6 x86 xbd xfe x28 x63 x93)) O
(C x32 (Some (W xfc xb0 x86 xbd xfe x25 x63 x93)) O
O)))
O)
O)
(C x32 (Some (W x80 x48 x1b xed xcf xf4 x4b x7d)) (C x5f None (C x30 None (C x30 (Some (W xf5 x0d x92 xb0 xe6 x29 xfa x64)) O
(C x31 (Some (W x42 x0c x92 xb0 xe6 x28 xfa x64)) O
(C x32 (Some (W x8f x0a x92 xb0 xe6 x27 xfa x64)) O
O)))
O)
O)
O)))
O)
O)
(C x33 (Some (W x7a x65 xa0 xb4 x4f x27 x63 xed)) (C x5f None (C x30 None (C x30 (Some (W x77 x93 x0f xa4 xc4 x0c x37 xa8)) (C x5f None (C x30 None (C x30 (Some (W x38 x7f xf6 x72 x7b x12 xea x73)) O
(C x31 (Some (W xeb x80 xf6 x72 x7b x13 xea x73)) O
(C x32 (Some (W x9e x82 xf6 x72 x7b x14 xea x73)) O
O)))
O)
O)
(C x31 (Some (W xc4 x91 x0f xa4 xc4 x0b x37 xa8)) (C x5f None (C x30 None (C x30 (Some (W xc9 xbe x8c xd7 x73 x48 x84 x1d)) O
(C x31 (Some (W x16 xbd x8c xd7 x73 x47 x84 x1d)) O
(C x32 (Some (W x63 xbb x8c xd7 x73 x46 x84 x1d)) O
O)))
O)
O)
(C x32 (Some (W xdd x96 x0f xa4 xc4 x0e x37 xa8)) (C x5f None (C x30 None (C x30 (Some (W x16 x37 xde xe4 x8b x46 x5a x4c)) O
(C x31 (Some (W xc9 x38 xde xe4 x8b x47 x5a x4c)) O
(C x32 (Some (W xb0 x33 xde xe4 x8b x44 x5a x4c)) O
O)))
O)
O)
O)))
O)
O)
(C x34 (Some (W xfb x5c xa0 xb4 x4f x22 x63 xed)) (C x5f None (C x30 None (C x30 (Some (W x2c x82 xd6 xea x9a xfa x91 x76)) (C x5f None (C x30 None (C x30 (Some (W xb1 xb8 x4d x34 x15 x0d xff x5d)) O
(C x31 (Some (W xfe xb6 x4d x34 x15 x0c xff x5d)) O
(C x32 (Some (W x4b xb5 x4d x34 x15 x0b xff x5d)) O
O)))
O)
O)
(C x31 (Some (W xdf x83 xd6 xea x9a xfb x91 x76)) (C x5f None (C x30 None (C x30 (Some (W x60 x89 xcd x5c x1a xb7 xed x60)) O
(C x31 (Some (W x13 x8b xcd x5c x1a xb8 xed x60)) O
(C x32 (Some (W xc6 x8c xcd x5c x1a xb9 xed x60)) O
O)))
O)
O)
(C x32 (Some (W x92 x85 xd6 xea x9a xfc x91 x76)) (C x5f None (C x30 None (C x30 (Some (W x0f x4a x36 xa6 x25 xc1 x6f x36)) O
(C x31 (Some (W x5c x48 x36 xa6 x25 xc0 x6f x36)) O
(C x32 (Some (W x75 x4d x36 xa6 x25 xc3 x6f x36)) O
O)))
O)
O)
O)))
O)
O)
(C x35 (Some (W x48 x5b xa0 xb4 x4f x21 x63 xed)) (C x5f None (C x30 None (C x30 (Some (W x1d xf8 x6c x4f x93 x50 x2c x20)) (C x5f None (C x30 None (C x30 (Some (W x56 x02 x7b x37 x69 xa0 x59 xc6)) O
(C x31 (Some (W x09 x04 x7b x37 x69 xa1 x59 xc6)) O
(C x32 (Some (W xf0 xfe x7a x37 x69 x9e x59 xc6)) O
O)))
O)
O)
(C x31 (Some (W x6a xf6 x6c x4f x93 x4f x2c x20)) (C x5f None (C x30 None (C x30 (Some (W xa7 xf4 x6e x28 x5f x76 xa3 x1b)) O
(C x31 (Some (W xf4 xf2 x6e x28 x5f x75 xa3 x1b)) O
(C x32 (Some (W x0d xf8 x6e x28 x5f x78 xa3 x1b)) O
O)))
O)
O)
(C x32 (Some (W xb7 xf4 x6c x4f x93 x4e x2c x20)) (C x5f None (C x30 None (C x30 (Some (W x78 x4a x93 xc5 x58 x6c xe9 xed)) O
(C x31 (Some (W x2b x4c x93 xc5 x58 x6d xe9 xed)) O
(C x32 (Some (W xde x4d x93 xc5 x58 x6e xe9 xed)) O
O)))
O)
O)
O)))
O)
O)
(C x36 (Some (W x61 x60 xa0 xb4 x4f x24 x63 xed)) (C x5f None (C x30 None (C x30 (Some (W x2a x1b xbe x96 xac x0e x61 x79)) (C x5f None (C x30 None (C x30 (Some (W x67 x56 x58 xeb xd1 x8f x8c x70)) O
(C x31 (Some (W xb4 x54 x58 xeb xd1 x8e x8c x70)) O
(C x32 (Some (W xcd x59 x58 xeb xd1 x91 x8c x70)) O
O)))
O)
O)
(C x31 (Some (W xdd x1c xbe x96 xac x0f x61 x79)) (C x5f None (C x30 None (C x30 (Some (W x16 xb9 x65 x12 xd7 xb9 xc7 x71)) O
(C x31 (Some (W xc9 xba x65 x12 xd7 xba xc7 x71)) O
(C x32 (Some (W xb0 xb5 x65 x12 xd7 xb7 xc7 x71)) O
O)))
O)
O)
(C x32 (Some (W xc4 x17 xbe x96 xac x0c x61 x79)) (C x5f None (C x30 None (C x30 (Some (W xc9 x40 x14 x05 xbf xbb xf1 x42)) O
(C x31 (Some (W x16 x3f x14 x05 xbf xba xf1 x42)) O
(C x32 (Some (W x63 x3d x14 x05 xbf xb9 xf1 x42)) O
O)))
O)
O)
O)))
O)
O)
(C x37 (Some (W xae x5e xa0 xb4 x4f x23 x63 xed)) (C x5f None (C x30 None (C x30 (Some (W x7b x05 x54 x35 xa6 x04 x5a x4d)) (C x5f None (C x30 None (C x30 (Some (W xac x0f x87 x2f xd4 x6e x93 xa9)) O
(C x31 (Some (W x5f x11 x87 x2f xd4 x6f x93 xa9)) O
(C x32 (Some (W x12 x13 x87 x2f xd4 x70 x93 xa9)) O
O)))
O)
O)
(C x31 (Some (W xc8 x03 x54 x35 xa6 x03 x5a x4d)) (C x5f None (C x30 None (C x30 (Some (W x9d x85 x1d x94 xcc xc4 x2d x53)) O
(C x31 (Some (W xea x83 x1d x94 xcc xc3 x2d x53)) O
(C x32 (Some (W x37 x82 x1d x94 xcc xc2 x2d x53)) O
O)))
O)
O)
(C x32 (Some (W xe1 x08 x54 x35 xa6 x06 x5a x4d)) (C x5f None (C x30 None (C x30 (Some (W xaa xa8 x6e xdb xe5 x82 x62 xac)) O
(C x31 (Some (W x5d xaa x6e xdb xe5 x83 x62 xac)) O
(C x32 (Some (W x44 xa5 x6e xdb xe5 x80 x62 xac)) O
O)))
O)
O)
O)))
O)
O)
(C x38 (Some (W x2f x56 xa0 xb4 x4f x1e x63 xed)) (C x5f None (C x30 None (C x30 (Some (W x30 xf4 x1a x7c x7c xf2 xb4 x1b)) (C x5f None (C x30 None (C x30 (Some (W x25 x49 xde xf0 x6d x69 xa8 x93)) O
(C x31 (Some (W x72 x47 xde xf0 x6d x68 xa8 x93)) O
(C x32 (Some (W xbf x45 xde xf0 x6d x67 xa8 x93)) O
O)))
O)
O)
(C x31 (Some (W xe3 xf5 x1a x7c x7c xf3 xb4 x1b)) (C x5f None (C x30 None (C x30 (Some (W x74 x66 xec x51 x74 xf3 x42 xbf)) O
(C x31 (Some (W x27 x68 xec x51 x74 xf4 x42 xbf)) O
(C x32 (Some (W xda x69 xec x51 x74 xf5 x42 xbf)) O
O)))
O)
O)
(C x32 (Some (W x96 xf7 x1a x7c x7c xf4 xb4 x1b)) (C x5f None (C x30 None (C x30 (Some (W x83 xda xc6 x62 x7e x1d x19 x6c)) O
(C x31 (Some (W xd0 xd8 xc6 x62 x7e x1c x19 x6c)) O
(C x32 (Some (W xe9 xdd xc6 x62 x7e x1f x19 x6c)) O
O)))
O)
O)
O)))
O)
O)
(C x39 (Some (W x7c x54 xa0 xb4 x4f x1d x63 xed)) (C x5f None (C x30 None (C x30 (Some (W x41 xa7 x9d x31 x71 x08 xed x44)) (C x5f None (C x30 None (C x30 (Some (W xca x7b xa5 xd3 xb4 x48 x15 x9d)) O
(C x31 (Some (W x7d x7d xa5 xd3 xb4 x49 x15 x9d)) O
(C x32 (Some (W x64 x78 xa5 xd3 xb4 x46 x15 x9d)) O
O)))
O)
O)
(C x31 (Some (W x8e xa5 x9d x31 x71 x07 xed x44)) (C x5f None (C x30 None (C x30 (Some (W x9b x3f x3c x72 xae xbe x0e x71)) O
(C x31 (Some (W xe8 x3d x3c x72 xae xbd x0e x71)) O
(C x32 (Some (W x01 x43 x3c x72 xae xc0 x0e x71)) O
O)))
O)
O)
(C x32 (Some (W xdb xa3 x9d x31 x71 x06 xed x44)) (C x5f None (C x30 None (C x30 (Some (W x4c x77 x2f x29 xa3 x34 xf9 x9b)) O
(C x31 (Some (W xff x78 x2f x29 xa3 x35 xf9 x9b)) O
(C x32 (Some (W xb2 x7a x2f x29 xa3 x36 xf9 x9b)) O
O)))
O)
O)
O)))
O)
O)
O))))))))))
(C x31 None (C x30 (Some (W x3e x4a x9d xb4 x4f xa0 x5f xed)) (C x5f None (C x30 None (C x30 (Some (W xcb xcd x91 x56 x89 x64 xa9 x0b)) (C x5f None (C x30 None (C x30 (Some (W xfc x76 x5e x4d x68 xbc x04 x1d)) O
(C x31 (Some (W xaf x78 x5e x4d x68 xbd x04 x1d)) O
(C x32 (Some (W x62 x7a x5e x4d x68 xbe x04 x1d)) O
O)))
O)
O)
(C x31 (Some (W x18 xcc x91 x56 x89 x63 xa9 x0b)) (C x5f None (C x30 None (C x30 (Some (W xad x97 xf4 xeb x61 xd2 xfd xf0)) O
(C x31 (Some (W xfa x95 xf4 xeb x61 xd1 xfd xf0)) O
(C x32 (Some (W x47 x94 xf4 xeb x61 xd0 xfd xf0)) O
O)))
O)
O)
(C x32 (Some (W x31 xd1 x91 x56 x89 x66 xa9 x0b)) (C x5f None (C x30 None (C x30 (Some (W xba xba x45 x33 x7b x90 x32 x4a)) O
(C x31 (Some (W x6d xbc x45 x33 x7b x91 x32 x4a)) O
(C x32 (Some (W x54 xb7 x45 x33 x7b x8e x32 x4a)) O
O)))
O)
O)
O)))
O)
O)
(C x31 (Some (W xf1 x4b x9d xb4 x4f xa1 x5f xed)) (C x5f None (C x30 None (C x30 (Some (W x7a xe3 xfb xb7 x8f x6e xb0 x37)) (C x5f None (C x30 None (C x30 (Some (W x77 xbd x30 x5b x62 x9d xe1 x64)) O
(C x31 (Some (W xc4 xbb x30 x5b x62 x9c xe1 x64)) O
(C x32 (Some (W xdd xc0 x30 x5b x62 x9f xe1 x64)) O
O)))
O)
O)
(C x31 (Some (W x2d xe5 xfb xb7 x8f x6f xb0 x37)) (C x5f None (C x30 None (C x30 (Some (W xe6 x75 x3c xa4 x6d x87 xf6 x39)) O
(C x31 (Some (W x99 x77 x3c xa4 x6d x88 xf6 x39)) O
(C x32 (Some (W x80 x72 x3c xa4 x6d x85 xf6 x39)) O
O)))
O)
O)
(C x32 (Some (W x14 xe0 xfb xb7 x8f x6c xb0 x37)) (C x5f None (C x30 None (C x30 (Some (W xd9 x52 xeb x5c x54 xc9 xc1 xe0)) O
(C x31 (Some (W x26 x51 xeb x5c x54 xc8 xc1 xe0)) O
(C x32 (Some (W x73 x4f xeb x5c x54 xc7 xc1 xe0)) O
O)))
O)
O)
O)))
O)
O)
(C x32 (Some (W xd8 x46 x9d xb4 x4f x9e x5f xed)) (C x5f None (C x30 None (C x30 (Some (W x6d xc0 xaa x70 x76 xb0 x7b xde)) (C x5f None (C x30 None (C x30 (Some (W x26 x14 x53 xe1 xfa x6d x0d xe5)) O
(C x31 (Some (W xd9 x15 x53 xe1 xfa x6e x0d xe5)) O
(C x32 (Some (W xc0 x10 x53 xe1 xfa x6b x0d xe5)) O
O)))
O)
O)
(C x31 (Some (W xba xbe xaa x70 x76 xaf x7b xde)) (C x5f None (C x30 None (C x30 (Some (W xb7 x06 x46 x80 xf4 x83 x73 xb9)) O
(C x31 (Some (W x04 x05 x46 x80 xf4 x82 x73 xb9)) O
(C x32 (Some (W x1d x0a x46 x80 xf4 x85 x73 xb9)) O
O)))
O)
O)
(C x32 (Some (W x07 xbd xaa x70 x76 xae x7b xde)) (C x5f None (C x30 None (C x30 (Some (W x48 x46 xdc xe4 xec xb9 x0d x63)) O
(C x31 (Some (W xfb x47 xdc xe4 xec xba x0d x63)) O
(C x32 (Some (W xae x49 xdc xe4 xec xbb x0d x63)) O
O)))
O)
O)
O)))
O)
O)
(C x33 (Some (W x8b x48 x9d xb4 x4f x9f x5f xed)) (C x5f None (C x30 None (C x30 (Some (W xbc x4a x13 xba x81 x9a xfd xb3)) (C x5f None (C x30 None (C x30 (Some (W x81 xf9 x7a x8d xda x40 xdd x17)) O
(C x31 (Some (W xce xf7 x7a x8d xda x3f xdd x17)) O
(C x32 (Some (W x1b xf6 x7a x8d xda x3e xdd x17)) O
O)))
O)
O)
(C x31 (Some (W x6f x4c x13 xba x81 x9b xfd xb3)) (C x5f None (C x30 None (C x30 (Some (W x70 x9b xf9 xef xe0 x2a x2a x45)) O
(C x31 (Some (W x23 x9d xf9 xef xe0 x2b x2a x45)) O
(C x32 (Some (W xd6 x9e xf9 xef xe0 x2c x2a x45)) O
O)))
O)
O)
(C x32 (Some (W x22 x4e x13 xba x81 x9c xfd xb3)) (C x5f None (C x30 None (C x30 (Some (W x1f x5c x62 x39 xec x34 xac x1a)) O
(C x31 (Some (W x6c x5a x62 x39 xec x33 xac x1a)) O
(C x32 (Some (W x85 x5f x62 x39 xec x36 xac x1a)) O
O)))
O)
O)
O)))
O)
O)
(C x34 (Some (W x0a x51 x9d xb4 x4f xa4 x5f xed)) (C x5f None (C x30 None (C x30 (Some (W x07 x5c x4c x73 xab xac xa2 xe5)) (C x5f None (C x30 None (C x30 (Some (W x48 x7b x93 x7b x44 x06 x97 xae)) O
(C x31 (Some (W xfb x7c x93 x7b x44 x07 x97 xae)) O
(C x32 (Some (W xae x7e x93 x7b x44 x08 x97 xae)) O
O)))
O)
O)
(C x31 (Some (W x54 x5a x4c x73 xab xab xa2 xe5)) (C x5f None (C x30 None (C x30 (Some (W x19 x26 xb9 x30 x39 xfc x61 xd7)) O
(C x31 (Some (W x66 x24 xb9 x30 x39 xfb x61 xd7)) O
(C x32 (Some (W xb3 x22 xb9 x30 x39 xfa x61 xd7)) O
O)))
O)
O)
(C x32 (Some (W x6d x5f x4c x73 xab xae xa2 xe5)) (C x5f None (C x30 None (C x30 (Some (W x26 x49 x0a x78 x52 xba x96 x30)) O
(C x31 (Some (W xd9 x4a x0a x78 x52 xbb x96 x30)) O
(C x32 (Some (W xc0 x45 x0a x78 x52 xb8 x96 x30)) O
O)))
O)
O)
O)))
O)
O)
(C x35 (Some (W xbd x52 x9d xb4 x4f xa5 x5f xed)) (C x5f None (C x30 None (C x30 (Some (W x36 x82 xcb x0f xb3 xd6 x4e x3d)) (C x5f None (C x30 None (C x30 (Some (W x63 xfc xe4 xc8 xf3 x84 x44 xdb)) O
(C x31 (Some (W xb0 xfa xe4 xc8 xf3 x83 x44 xdb)) O
(C x32 (Some (W xc9 xff xe4 xc8 xf3 x86 x44 xdb)) O
O)))
O)
O)
(C x31 (Some (W xe9 x83 xcb x0f xb3 xd7 x4e x3d)) (C x5f None (C x30 None (C x30 (Some (W xb2 xd4 x63 x2b xfa x8e x91 x08)) O
(C x31 (Some (W x65 xd6 x63 x2b xfa x8f x91 x08)) O
(C x32 (Some (W x4c xd1 x63 x2b xfa x8c x91 x08)) O
O)))
O)
O)
(C x32 (Some (W xd0 x7e xcb x0f xb3 xd4 x4e x3d)) (C x5f None (C x30 None (C x30 (Some (W x05 xef xfd xe2 xe0 xd0 x16 xae)) O
(C x31 (Some (W x52 xed xfd xe2 xe0 xcf x16 xae)) O
(C x32 (Some (W x9f xeb xfd xe2 xe0 xce x16 xae)) O
O)))
O)
O)
O)))
O)
O)
(C x36 (Some (W xa4 x4d x9d xb4 x4f xa2 x5f xed)) (C x5f None (C x30 None (C x30 (Some (W xe9 x09 x7a x02 x9b xd8 x78 x0e)) (C x5f None (C x30 None (C x30 (Some (W xb2 x56 xeb x58 x45 x02 xff x2d)) O
(C x31 (Some (W x65 x58 xeb x58 x45 x03 xff x2d)) O
(C x32 (Some (W x4c x53 xeb x58 x45 x00 xff x2d)) O
O)))
O)
O)
(C x31 (Some (W x36 x08 x7a x02 x9b xd7 x78 x0e)) (C x5f None (C x30 None (C x30 (Some (W x63 x7e x6c xf6 x3e xf8 xb1 x00)) O
(C x31 (Some (W xb0 x7c x6c xf6 x3e xf7 xb1 x00)) O
(C x32 (Some (W xc9 x81 x6c xf6 x3e xfa xb1 x00)) O
O)))
O)
O)
(C x32 (Some (W x83 x06 x7a x02 x9b xd6 x78 x0e)) (C x5f None (C x30 None (C x30 (Some (W x54 xf4 x02 x5b x37 x4e x4c xaa)) O
(C x31 (Some (W x07 xf6 x02 x5b x37 x4f x4c xaa)) O
(C x32 (Some (W xba xf7 x02 x5b x37 x50 x4c xaa)) O
O)))
O)
O)
O)))
O)
O)
(C x37 (Some (W x57 x4f x9d xb4 x4f xa3 x5f xed)) (C x5f None (C x30 None (C x30 (Some (W x58 x9b xe3 x29 xa0 xa2 x20 x10)) (C x5f None (C x30 None (C x30 (Some (W xed x31 xfc xcd x58 xd2 x39 x51)) O
(C x31 (Some (W x3a x30 xfc xcd x58 xd1 x39 x51)) O
(C x32 (Some (W x87 x2e xfc xcd x58 xd0 x39 x51)) O
O)))
O)
O)
(C x31 (Some (W x0b x9d xe3 x29 xa0 xa3 x20 x10)) (C x5f None (C x30 None (C x30 (Some (W x3c xbc x64 x17 x64 xbc xbb x26)) O
(C x31 (Some (W xef xbd x64 x17 x64 xbd xbb x26)) O
(C x32 (Some (W xa2 xbf x64 x17 x64 xbe xbb x26)) O
O)))
O)
O)
(C x32 (Some (W xbe x9e xe3 x29 xa0 xa4 x20 x10)) (C x5f None (C x30 None (C x30 (Some (W x4b x3f xe3 xb3 x6b x86 x67 x7e)) O
(C x31 (Some (W x98 x3d xe3 xb3 x6b x85 x67 x7e)) O
(C x32 (Some (W xb1 x42 xe3 xb3 x6b x88 x67 x7e)) O
O)))
O)
O)
O)))
O)
O)
(C x38 (Some (W xa6 x3c x9d xb4 x4f x98 x5f xed)) (C x5f None (C x30 None (C x30 (Some (W x13 x16 x64 x90 x47 x54 x9b xab)) (C x5f None (C x30 None (C x30 (Some (W xa4 xc8 x5f x0f xba x1b xe1 x17)) O
(C x31 (Some (W x57 xca x5f x0f xba x1c xe1 x17)) O
(C x32 (Some (W x0a xcc x5f x0f xba x1d xe1 x17)) O
O)))
O)
O)
(C x31 (Some (W x60 x14 x64 x90 x47 x53 x9b xab)) (C x5f None (C x30 None (C x30 (Some (W x95 x84 x53 x00 xb0 xd1 x2a x6d)) O
(C x31 (Some (W xe2 x82 x53 x00 xb0 xd0 x2a x6d)) O
(C x32 (Some (W x2f x81 x53 x00 xb0 xcf x2a x6d)) O
O)))
O)
O)
(C x32 (Some (W x79 x19 x64 x90 x47 x56 x9b xab)) (C x5f None (C x30 None (C x30 (Some (W x82 x04 x49 x0d xc8 x4f x94 x9b)) O
(C x31 (Some (W x35 x06 x49 x0d xc8 x50 x94 x9b)) O
(C x32 (Some (W x1c x01 x49 x0d xc8 x4d x94 x9b)) O
O)))
O)
O)
O)))
O)
O)
(C x39 (Some (W x59 x3e x9d xb4 x4f x99 x5f xed)) (C x5f None (C x30 None (C x30 (Some (W x22 xaf x71 xb7 x4c x9e xd6 xac)) (C x5f None (C x30 None (C x30 (Some (W x1f x27 xab xa2 x94 xe8 x22 xcf)) O
(C x31 (Some (W x6c x25 xab xa2 x94 xe7 x22 xcf)) O
(C x32 (Some (W x85 x2a xab xa2 x94 xea x22 xcf)) O
O)))
O)
O)
(C x31 (Some (W xd5 xb0 x71 xb7 x4c x9f xd6 xac)) (C x5f None (C x30 None (C x30 (Some (W x0e x92 x15 xca x99 x32 xcb xd0)) O
(C x31 (Some (W xc1 x93 x15 xca x99 x33 xcb xd0)) O
(C x32 (Some (W xa8 x8e x15 xca x99 x30 xcb xd0)) O
O)))
O)
O)
(C x32 (Some (W xbc xab x71 xb7 x4c x9c xd6 xac)) (C x5f None (C x30 None (C x30 (Some (W x81 xc4 xc3 xf6 x82 xf4 x53 xcc)) O
(C x31 (Some (W xce xc2 xc3 xf6 x82 xf3 x53 xcc)) O
(C x32 (Some (W x1b xc1 xc3 xf6 x82 xf2 x53 xcc)) O
O)))
O)
O)
O)))
O)
O)
O))))))))))
(C x32 None (C x30 (Some (W x35 x0a x9b xb4 x4f x9a x5c xed)) (C x5f None (C x30 None (C x30 (Some (W x2e x38 xb9 x85 x7f xca xe5 x98)) (C x5f None (C x30 None (C x30 (Some (W xfb x4d x3a xcb xdf xb3 xeb xa0)) O
(C x31 (Some (W x48 x4c x3a xcb xdf xb2 xeb xa0)) O
(C x32 (Some (W x61 x51 x3a xcb xdf xb5 xeb xa0)) O
O)))
O)
O)
(C x31 (Some (W xe1 x39 xb9 x85 x7f xcb xe5 x98)) (C x5f None (C x30 None (C x30 (Some (W xaa x63 xa4 x2c xe6 xbd xf2 xcc)) O
(C x31 (Some (W x5d x65 xa4 x2c xe6 xbe xf2 xcc)) O
(C x32 (Some (W x44 x60 xa4 x2c xe6 xbb xf2 xcc)) O
O)))
O)
O)
(C x32 (Some (W xc8 x34 xb9 x85 x7f xc8 xe5 x98)) (C x5f None (C x30 None (C x30 (Some (W x9d x40 x53 xe5 xcc xff xbd x73)) O
(C x31 (Some (W xea x3e x53 xe5 xcc xfe xbd x73)) O
(C x32 (Some (W x37 x3d x53 xe5 xcc xfd xbd x73)) O
O)))
O)
O)
O)))
O)
O)
(C x31 (Some (W x82 x08 x9b xb4 x4f x99 x5c xed)) (C x5f None (C x30 None (C x30 (Some (W xbf x77 x4f xea x77 x00 x80 x42)) (C x5f None (C x30 None (C x30 (Some (W x80 xce xf6 x06 x29 x06 x17 x09)) O
(C x31 (Some (W x33 xd0 xf6 x06 x29 x07 x17 x09)) O
(C x32 (Some (W xe6 xd1 xf6 x06 x29 x08 x17 x09)) O
O)))
O)
O)
(C x31 (Some (W x0c x76 x4f xea x77 xff x7f x42)) (C x5f None (C x30 None (C x30 (Some (W x51 x16 xea x6b x21 x5c x1e xb3)) O
(C x31 (Some (W x9e x14 xea x6b x21 x5b x1e xb3)) O
(C x32 (Some (W xeb x12 xea x6b x21 x5a x1e xb3)) O
O)))
O)
O)
(C x32 (Some (W x25 x7b x4f xea x77 x02 x80 x42)) (C x5f None (C x30 None (C x30 (Some (W x5e x39 x3b xb3 x3a x1a x53 x0c)) O
(C x31 (Some (W x11 x3b x3b xb3 x3a x1b x53 x0c)) O
(C x32 (Some (W xf8 x35 x3b xb3 x3a x18 x53 x0c)) O
O)))
O)
O)
O)))
O)
O)
(C x32 (Some (W xcf x06 x9b xb4 x4f x98 x5c xed)) (C x5f None (C x30 None (C x30 (Some (W x10 xfc x75 x9f x6c x76 x4b x6b)) (C x5f None (C x30 None (C x30 (Some (W x45 x6e xe4 x7a x2d x81 x27 xd1)) O
(C x31 (Some (W x92 x6c xe4 x7a x2d x80 x27 xd1)) O
(C x32 (Some (W xdf x6a xe4 x7a x2d x7f x27 xd1)) O
O)))
O)
O)
(C x31 (Some (W xc3 xfd x75 x9f x6c x77 x4b x6b)) (C x5f None (C x30 None (C x30 (Some (W x94 x46 x63 xdd x33 x8b x74 xfe)) O
(C x31 (Some (W x47 x48 x63 xdd x33 x8c x74 xfe)) O
(C x32 (Some (W xfa x49 x63 xdd x33 x8d x74 xfe)) O
O)))
O)
O)
(C x32 (Some (W x76 xff x75 x9f x6c x78 x4b x6b)) (C x5f None (C x30 None (C x30 (Some (W xa3 xd0 xcc x78 x3b x35 xda x54)) O
(C x31 (Some (W xf0 xce xcc x78 x3b x34 xda x54)) O
(C x32 (Some (W x09 xd4 xcc x78 x3b x37 xda x54)) O
O)))
O)
O)
O)))
O)
O)
(C x33 (Some (W x1c x05 x9b xb4 x4f x97 x5c xed)) (C x5f None (C x30 None (C x30 (Some (W x21 x15 x68 x3e x66 x0c xb1 x3f)) (C x5f None (C x30 None (C x30 (Some (W xea xac xb9 x51 x78 xa4 x84 x21)) O
(C x31 (Some (W x9d xae xb9 x51 x78 xa5 x84 x21)) O
(C x32 (Some (W x84 xa9 xb9 x51 x78 xa2 x84 x21)) O
O)))
O)
O)
(C x31 (Some (W x6e x13 x68 x3e x66 x0b xb1 x3f)) (C x5f None (C x30 None (C x30 (Some (W x3b xec x50 x08 x6d x9a x02 x4c)) O
(C x31 (Some (W x88 xea x50 x08 x6d x99 x02 x4c)) O
(C x32 (Some (W xa1 xef x50 x08 x6d x9c x02 x4c)) O
O)))
O)
O)
(C x32 (Some (W xbb x11 x68 x3e x66 x0a xb1 x3f)) (C x5f None (C x30 None (C x30 (Some (W xec x13 xd2 xa5 x66 x90 xb5 x1e)) O
(C x31 (Some (W x9f x15 xd2 xa5 x66 x91 xb5 x1e)) O
(C x32 (Some (W x52 x17 xd2 xa5 x66 x92 xb5 x1e)) O
O)))
O)
O)
O)))
O)
O)
(C x34 (Some (W x69 x03 x9b xb4 x4f x96 x5c xed)) (C x5f None (C x30 None (C x30 (Some (W x32 xff xfe x2e x5c xc2 x8d x94)) (C x5f None (C x30 None (C x30 (Some (W xef x10 x93 x94 x4a xdd x7d x3e)) O
(C x31 (Some (W x3c x0f x93 x94 x4a xdc x7d x3e)) O
(C x32 (Some (W x55 x14 x93 x94 x4a xdf x7d x3e)) O
O)))
O)
O)
(C x31 (Some (W xe5 x00 xff x2e x5c xc3 x8d x94)) (C x5f None (C x30 None (C x30 (Some (W x1e xbb x6e xf7 x50 xe7 x37 x6c)) O
(C x31 (Some (W xd1 xbc x6e xf7 x50 xe8 x37 x6c)) O
(C x32 (Some (W xb8 xb7 x6e xf7 x50 xe5 x37 x6c)) O
O)))
O)
O)
(C x32 (Some (W xcc xfb xfe x2e x5c xc0 x8d x94)) (C x5f None (C x30 None (C x30 (Some (W x11 x98 x1d xb0 x37 x29 x03 x13)) O
(C x31 (Some (W x5e x96 x1d xb0 x37 x28 x03 x13)) O
(C x32 (Some (W xab x94 x1d xb0 x37 x27 x03 x13)) O
O)))
O)
O)
O)))
O)
O)
(C x35 (Some (W xb6 x01 x9b xb4 x4f x95 x5c xed)) (C x5f None (C x30 None (C x30 (Some (W xe3 x26 x80 xcc x55 xb8 x40 x67)) (C x5f None (C x30 None (C x30 (Some (W x74 x21 x22 xa3 x74 x2e xd3 xdf)) O
(C x31 (Some (W x27 x23 x22 xa3 x74 x2f xd3 xdf)) O
(C x32 (Some (W xda x24 x22 xa3 x74 x30 xd3 xdf)) O
O)))
O)
O)
(C x31 (Some (W x30 x25 x80 xcc x55 xb7 x40 x67)) (C x5f None (C x30 None (C x30 (Some (W x25 x04 x14 x42 x6e xa4 x38 xb4)) O
(C x31 (Some (W x72 x02 x14 x42 x6e xa3 x38 xb4)) O
(C x32 (Some (W xbf x00 x14 x42 x6e xa2 x38 xb4)) O
O)))
O)
O)
(C x32 (Some (W x49 x2a x80 xcc x55 xba x40 x67)) (C x5f None (C x30 None (C x30 (Some (W x52 xd9 x09 x15 x85 x62 x43 xb8)) O
(C x31 (Some (W x05 xdb x09 x15 x85 x63 x43 xb8)) O
(C x32 (Some (W xec xd5 x09 x15 x85 x60 x43 xb8)) O
O)))
O)
O)
O)))
O)
O)
(C x36 (Some (W x03 x00 x9b xb4 x4f x94 x5c xed)) (C x5f None (C x30 None (C x30 (Some (W xd4 x9c x16 x31 x4e x0e xdb x10)) (C x5f None (C x30 None (C x30 (Some (W x99 x91 x4e xa6 xc8 x41 x2d x48)) O
(C x31 (Some (W xe6 x8f x4e xa6 xc8 x40 x2d x48)) O
(C x32 (Some (W x33 x8e x4e xa6 xc8 x3f x2d x48)) O
O)))
O)
O)
(C x31 (Some (W x87 x9e x16 x31 x4e x0f xdb x10)) (C x5f None (C x30 None (C x30 (Some (W xc8 xe6 x28 xf1 xd3 x4b x62 x1f)) O
(C x31 (Some (W x7b xe8 x28 xf1 xd3 x4c x62 x1f)) O
(C x32 (Some (W x2e xea x28 xf1 xd3 x4d x62 x1f)) O
O)))
O)
O)
(C x32 (Some (W x3a xa0 x16 x31 x4e x10 xdb x10)) (C x5f None (C x30 None (C x30 (Some (W x37 xa7 x92 x8c xdb x15 xc8 x75)) O
(C x31 (Some (W x84 xa5 x92 x8c xdb x14 xc8 x75)) O
(C x32 (Some (W x9d xaa x92 x8c xdb x17 xc8 x75)) O
O)))
O)
O)
O)))
O)
O)
(C x37 (Some (W x50 xfe x9a xb4 x4f x93 x5c xed)) (C x5f None (C x30 None (C x30 (Some (W x85 x19 x99 xe6 x42 x04 x13 x3a)) (C x5f None (C x30 None (C x30 (Some (W x7e x0c x72 xab x09 xe0 x05 xfd)) O
(C x31 (Some (W x31 x0e x72 xab x09 xe1 x05 xfd)) O
(C x32 (Some (W x18 x09 x72 xab x09 xde x05 xfd)) O
O)))
O)
O)
(C x31 (Some (W xd2 x17 x99 xe6 x42 x03 x13 x3a)) (C x5f None (C x30 None (C x30 (Some (W x4f x25 x0a x62 xfe x55 x84 x27)) O
(C x31 (Some (W x9c x23 x0a x62 xfe x54 x84 x27)) O
(C x32 (Some (W xb5 x28 x0a x62 xfe x57 x84 x27)) O
O)))
O)
O)
(C x32 (Some (W x1f x16 x99 xe6 x42 x02 x13 x3a)) (C x5f None (C x30 None (C x30 (Some (W xa0 x0f xa0 x00 xf8 x4b x7d xfb)) O
(C x31 (Some (W x53 x11 xa0 x00 xf8 x4c x7d xfb)) O
(C x32 (Some (W x06 x13 xa0 x00 xf8 x4d x7d xfb)) O
O)))
O)
O)
O)))
O)
O)
(C x38 (Some (W xcd x17 x9b xb4 x4f xa2 x5c xed)) (C x5f None (C x30 None (C x30 (Some (W x46 xe8 xe7 x11 xc0 x7a x95 xce)) (C x5f None (C x30 None (C x30 (Some (W x73 xed x34 xe0 xf2 x0a x9d x7d)) O
(C x31 (Some (W xc0 xeb x34 xe0 xf2 x09 x9d x7d)) O
(C x32 (Some (W xd9 xf0 x34 xe0 xf2 x0c x9d x7d)) O
O)))
O)
O)
(C x31 (Some (W xf9 xe9 xe7 x11 xc0 x7b x95 xce)) (C x5f None (C x30 None (C x30 (Some (W x02 x4a xb4 x7c xfa x54 x49 xd5)) O
(C x31 (Some (W xb5 x4b xb4 x7c xfa x55 x49 xd5)) O
(C x32 (Some (W x9c x46 xb4 x7c xfa x52 x49 xd5)) O
O)))
O)
O)
(C x32 (Some (W xe0 xe4 xe7 x11 xc0 x78 x95 xce)) (C x5f None (C x30 None (C x30 (Some (W x15 xca xbe x6f xe2 xd6 xdf xa6)) O
(C x31 (Some (W x62 xc8 xbe x6f xe2 xd5 xdf xa6)) O
(C x32 (Some (W xaf xc6 xbe x6f xe2 xd4 xdf xa6)) O
O)))
O)
O)
O)))
O)
O)
(C x39 (Some (W x1a x16 x9b xb4 x4f xa1 x5c xed)) (C x5f None (C x30 None (C x30 (Some (W xd7 x6c x68 xaf xb9 x10 x48 xa1)) (C x5f None (C x30 None (C x30 (Some (W xd8 x4f x55 xd5 xfd xd8 x29 x4c)) O
(C x31 (Some (W x8b x51 x55 xd5 xfd xd9 x29 x4c)) O
(C x32 (Some (W x3e x53 x55 xd5 xfd xda x29 x4c)) O
O)))
O)
O)
(C x31 (Some (W x24 x6b x68 xaf xb9 x0f x48 xa1)) (C x5f None (C x30 None (C x30 (Some (W x69 xbe xeb xad xf8 x0e x82 x4a)) O
(C x31 (Some (W xb6 xbc xeb xad xf8 x0d x82 x4a)) O
(C x32 (Some (W x03 xbb xeb xad xf8 x0c x82 x4a)) O
O)))
O)
O)
(C x32 (Some (W x3d x70 x68 xaf xb9 x12 x48 xa1)) (C x5f None (C x30 None (C x30 (Some (W xb6 x36 x3d xbb x10 x0d x58 x79)) O
(C x31 (Some (W x69 x38 x3d xbb x10 x0e x58 x79)) O
(C x32 (Some (W x50 x33 x3d xbb x10 x0b x58 x79)) O
O)))
O)
O)
O)))
O)
O)
O))))))))))
(C x33 None (C x30 (Some (W xac xf0 x97 xb4 x4f x14 x59 xed)) (C x5f None (C x30 None (C x30 (Some (W x31 x88 xa5 x99 x4a x2c x5f x28)) (C x5f None (C x30 None (C x30 (Some (W xba xf7 x02 xb2 xc6 x3e x30 x90)) O
(C x31 (Some (W x6d xf9 x02 xb2 xc6 x3f x30 x90)) O
(C x32 (Some (W x54 xf4 x02 xb2 xc6 x3c x30 x90)) O
O)))
O)
O)
(C x31 (Some (W x7e x86 xa5 x99 x4a x2b x5f x28)) (C x5f None (C x30 None (C x30 (Some (W x0b x37 x9a x68 xbb x34 xae xba)) O
(C x31 (Some (W x58 x35 x9a x68 xbb x33 xae xba)) O
(C x32 (Some (W x71 x3a x9a x68 xbb x36 xae xba)) O
O)))
O)
O)
(C x32 (Some (W xcb x84 xa5 x99 x4a x2a x5f x28)) (C x5f None (C x30 None (C x30 (Some (W xfc xb3 x1b xcc xb3 x6a x02 x63)) O
(C x31 (Some (W xaf xb5 x1b xcc xb3 x6b x02 x63)) O
(C x32 (Some (W x62 xb7 x1b xcc xb3 x6c x02 x63)) O
O)))
O)
O)
O)))
O)
O)
(C x31 (Some (W x5f xf2 x97 xb4 x4f x15 x59 xed)) (C x5f None (C x30 None (C x30 (Some (W xe0 x58 x25 xc2 x4f xd6 x4d x2b)) (C x5f None (C x30 None (C x30 (Some (W x15 x46 xe3 xcd xfd xe3 xff x48)) O
(C x31 (Some (W x62 x44 xe3 xcd xfd xe2 xff x48)) O
(C x32 (Some (W xaf x42 xe3 xcd xfd xe1 xff x48)) O
O)))
O)
O)
(C x31 (Some (W x93 x5a x25 xc2 x4f xd7 x4d x2b)) (C x5f None (C x30 None (C x30 (Some (W x24 x8a xef xdc x07 x2e xb6 xf3)) O
(C x31 (Some (W xd7 x8b xef xdc x07 x2f xb6 xf3)) O
(C x32 (Some (W x8a x8d xef xdc x07 x30 xb6 xf3)) O
O)))
O)
O)
(C x32 (Some (W x46 x5c x25 xc2 x4f xd8 x4d x2b)) (C x5f None (C x30 None (C x30 (Some (W x73 x69 x59 x3e x0e x18 xbd x1f)) O
(C x31 (Some (W xc0 x67 x59 x3e x0e x17 xbd x1f)) O
(C x32 (Some (W xd9 x6c x59 x3e x0e x1a xbd x1f)) O
O)))
O)
O)
O)))
O)
O)
(C x32 (Some (W x12 xf4 x97 xb4 x4f x16 x59 xed)) (C x5f None (C x30 None (C x30 (Some (W x8f x19 x8e x0b x5b xe0 xcf x00)) (C x5f None (C x30 None (C x30 (Some (W xd0 x57 xad x3f xe8 xd7 xde x79)) O
(C x31 (Some (W x83 x59 xad x3f xe8 xd8 xde x79)) O
(C x32 (Some (W x36 x5b xad x3f xe8 xd9 xde x79)) O
O)))
O)
O)
(C x31 (Some (W xdc x17 x8e x0b x5b xdf xcf x00)) (C x5f None (C x30 None (C x30 (Some (W xe1 xc5 xa0 xf6 xdc x6d xc9 xa4)) O
(C x31 (Some (W x2e xc4 xa0 xf6 xdc x6c xc9 xa4)) O
(C x32 (Some (W x7b xc2 xa0 xf6 xdc x6b xc9 xa4)) O
O)))
O)
O)
(C x32 (Some (W xf5 x1c x8e x0b x5b xe2 xcf x00)) (C x5f None (C x30 None (C x30 (Some (W xee xe8 xf1 x3d xf6 x2b xfe xfd)) O
(C x31 (Some (W xa1 xea xf1 x3d xf6 x2c xfe xfd)) O
(C x32 (Some (W x88 xe5 xf1 x3d xf6 x29 xfe xfd)) O
O)))
O)
O)
O)))
O)
O)
(C x33 (Some (W xc5 xf5 x97 xb4 x4f x17 x59 xed)) (C x5f None (C x30 None (C x30 (Some (W xbe x55 xf7 x6c x61 x6a xd6 x2c)) (C x5f None (C x30 None (C x30 (Some (W x4b x7c xa0 x32 xb7 x34 x65 xc4)) O
(C x31 (Some (W x98 x7a xa0 x32 xb7 x33 x65 xc4)) O
(C x32 (Some (W xb1 x7f xa0 x32 xb7 x36 x65 xc4)) O
O)))
O)
O)
(C x31 (Some (W x71 x57 xf7 x6c x61 x6b xd6 x2c)) (C x5f None (C x30 None (C x30 (Some (W xfa x91 x0a x94 xbd x3e x6c xf0)) O
(C x31 (Some (W xad x93 x0a x94 xbd x3f x6c xf0)) O
(C x32 (Some (W x94 x8e x0a x94 xbd x3c x6c xf0)) O
O)))
O)
O)
(C x32 (Some (W x58 x52 xf7 x6c x61 x68 xd6 x2c)) (C x5f None (C x30 None (C x30 (Some (W xed x6e xb9 x4c xa4 x80 x37 x97)) O
(C x31 (Some (W x3a x6d xb9 x4c xa4 x7f x37 x97)) O
(C x32 (Some (W x87 x6b xb9 x4c xa4 x7e x37 x97)) O
O)))
O)
O)
O)))
O)
O)
(C x34 (Some (W xe0 xe9 x97 xb4 x4f x10 x59 xed)) (C x5f None (C x30 None (C x30 (Some (W x15 x21 x48 x43 x27 x24 x74 x24)) (C x5f None (C x30 None (C x30 (Some (W x4e x62 x71 xb3 x96 x8f x23 xc3)) O
(C x31 (Some (W x01 x64 x71 xb3 x96 x90 x23 xc3)) O
(C x32 (Some (W xe8 x5e x71 xb3 x96 x8d x23 xc3)) O
O)))
O)
O)
(C x31 (Some (W x62 x1f x48 x43 x27 x23 x74 x24)) (C x5f None (C x30 None (C x30 (Some (W x5f x4c x08 xa4 x8c x45 x00 x18)) O
(C x31 (Some (W xac x4a x08 xa4 x8c x44 x00 x18)) O
(C x32 (Some (W xc5 x4f x08 xa4 x8c x47 x00 x18)) O
O)))
O)
O)
(C x32 (Some (W xaf x1d x48 x43 x27 x22 x74 x24)) (C x5f None (C x30 None (C x30 (Some (W xb0 x36 x9e x42 x86 x3b xf9 xeb)) O
(C x31 (Some (W x63 x38 x9e x42 x86 x3c xf9 xeb)) O
(C x32 (Some (W x16 x3a x9e x42 x86 x3d xf9 xeb)) O
O)))
O)
O)
O)))
O)
O)
(C x35 (Some (W x93 xeb x97 xb4 x4f x11 x59 xed)) (C x5f None (C x30 None (C x30 (Some (W x24 x65 x54 x52 x31 x6e x2a xcf)) (C x5f None (C x30 None (C x30 (Some (W x69 xbc x97 x39 x5f x8f x0f x12)) O
(C x31 (Some (W xb6 xba x97 x39 x5f x8e x0f x12)) O
(C x32 (Some (W x03 xb9 x97 x39 x5f x8d x0f x12)) O
O)))
O)
O)
(C x31 (Some (W xd7 x66 x54 x52 x31 x6f x2a xcf)) (C x5f None (C x30 None (C x30 (Some (W xd8 x4d x01 x61 x64 x59 xb7 x13)) O
(C x31 (Some (W x8b x4f x01 x61 x64 x5a xb7 x13)) O
(C x32 (Some (W x3e x51 x01 x61 x64 x5b xb7 x13)) O
O)))
O)
O)
(C x32 (Some (W x8a x68 x54 x52 x31 x70 x2a xcf)) (C x5f None (C x30 None (C x30 (Some (W x87 x0e x6a xaa x6f x63 x39 xe9)) O
(C x31 (Some (W xd4 x0c x6a xaa x6f x62 x39 xe9)) O
(C x32 (Some (W xed x11 x6a xaa x6f x65 x39 xe9)) O
O)))
O)
O)
O)))
O)
O)
(C x36 (Some (W x46 xed x97 xb4 x4f x12 x59 xed)) (C x5f None (C x30 None (C x30 (Some (W x73 x44 xbe xb3 x37 x58 x31 xfb)) (C x5f None (C x30 None (C x30 (Some (W x44 xe4 xf9 x0b x4c xaf xff x04)) O
(C x31 (Some (W xf7 xe5 xf9 x0b x4c xb0 xff x04)) O
(C x32 (Some (W xaa xe7 xf9 x0b x4c xb1 xff x04)) O
O)))
O)
O)
(C x31 (Some (W xc0 x42 xbe xb3 x37 x57 x31 xfb)) (C x5f None (C x30 None (C x30 (Some (W x35 x61 x7b x6f x44 xe5 x53 xad)) O
(C x31 (Some (W x82 x5f x7b x6f x44 xe4 x53 xad)) O
(C x32 (Some (W xcf x5d x7b x6f x44 xe3 x53 xad)) O
O)))
O)
O)
(C x32 (Some (W xd9 x47 xbe xb3 x37 x5a x31 xfb)) (C x5f None (C x30 None (C x30 (Some (W xa2 x07 x70 x7c x5c xe3 xbc xdb)) O
(C x31 (Some (W x55 x09 x70 x7c x5c xe4 xbc xdb)) O
(C x32 (Some (W x3c x04 x70 x7c x5c xe1 xbc xdb)) O
O)))
O)
O)
O)))
O)
O)
(C x37 (Some (W xf9 xee x97 xb4 x4f x13 x59 xed)) (C x5f None (C x30 None (C x30 (Some (W x02 xa1 x3d x50 x3f xa2 xdd x52)) (C x5f None (C x30 None (C x30 (Some (W x3f x55 xba xce x09 x2f xf8 xb0)) O
(C x31 (Some (W x8c x53 xba xce x09 x2e xf8 xb0)) O
(C x32 (Some (W xa5 x58 xba xce x09 x31 xf8 xb0)) O
O)))
O)
O)
(C x31 (Some (W xb5 xa2 x3d x50 x3f xa3 xdd x52)) (C x5f None (C x30 None (C x30 (Some (W xae x15 x24 x6a x11 xf9 x5d x07)) O
(C x31 (Some (W x61 x17 x24 x6a x11 xfa x5d x07)) O
(C x32 (Some (W x48 x12 x24 x6a x11 xf7 x5d x07)) O
O)))
O)
O)
(C x32 (Some (W x9c x9d x3d x50 x3f xa0 xdd x52)) (C x5f None (C x30 None (C x30 (Some (W xa1 xf2 xd2 x22 xf8 x3a x29 xae)) O
(C x31 (Some (W xee xf0 xd2 x22 xf8 x39 x29 xae)) O
(C x32 (Some (W x3b xef xd2 x22 xf8 x38 x29 xae)) O
O)))
O)
O)
O)))
O)
O)
(C x38 (Some (W x44 xfe x97 xb4 x4f x1c x59 xed)) (C x5f None (C x30 None (C x30 (Some (W x49 x38 xd4 x25 x8b xdc x0e x5e)) (C x5f None (C x30 None (C x30 (Some (W x52 x33 x13 xc8 xd9 x15 x28 x6e)) O
(C x31 (Some (W x05 x35 x13 xc8 xd9 x16 x28 x6e)) O
(C x32 (Some (W xec x2f x13 xc8 xd9 x13 x28 x6e)) O
O)))
O)
O)
(C x31 (Some (W x96 x36 xd4 x25 x8b xdb x0e x5e)) (C x5f None (C x30 None (C x30 (Some (W x83 xef x05 x67 xd3 x0b x8e x42)) O
(C x31 (Some (W xd0 xed x05 x67 xd3 x0a x8e x42)) O
(C x32 (Some (W xe9 xf2 x05 x67 xd3 x0d x8e x42)) O
O)))
O)
O)
(C x32 (Some (W xe3 x34 xd4 x25 x8b xda x0e x5e)) (C x5f None (C x30 None (C x30 (Some (W x74 x7b x2b x56 xc9 xe1 xb7 x95)) O
(C x31 (Some (W x27 x7d x2b x56 xc9 xe2 xb7 x95)) O
(C x32 (Some (W xda x7e x2b x56 xc9 xe3 xb7 x95)) O
O)))
O)
O)
O)))
O)
O)
(C x39 (Some (W xf7 xff x97 xb4 x4f x1d x59 xed)) (C x5f None (C x30 None (C x30 (Some (W xb8 xf8 x3d xc1 x92 xa6 x74 xb4)) (C x5f None (C x30 None (C x30 (Some (W x8d x5d x56 xc6 x91 x83 x5b x30)) O
(C x31 (Some (W xda x5b x56 xc6 x91 x82 x5b x30)) O
(C x32 (Some (W x27 x5a x56 xc6 x91 x81 x5b x30)) O
O)))
O)
O)
(C x31 (Some (W x6b xfa x3d xc1 x92 xa7 x74 xb4)) (C x5f None (C x30 None (C x30 (Some (W xdc x3c xc0 x27 x98 x6d x62 x5c)) O
(C x31 (Some (W x8f x3e xc0 x27 x98 x6e x62 x5c)) O
(C x32 (Some (W x42 x40 xc0 x27 x98 x6f x62 x5c)) O
O)))
O)
O)
(C x32 (Some (W x1e xfc x3d xc1 x92 xa8 x74 xb4)) (C x5f None (C x30 None (C x30 (Some (W xeb x80 xcc x36 xa2 xb7 x18 x07)) O
(C x31 (Some (W x38 x7f xcc x36 xa2 xb6 x18 x07)) O
(C x32 (Some (W x51 x84 xcc x36 xa2 xb9 x18 x07)) O
O)))
O)
O)
O)))
O)
O)
O))))))))))
(C x34 None (C x30 (Some (W x23 xd7 x94 xb4 x4f x8e x55 xed)) (C x5f None (C x30 None (C x30 (Some (W xb4 xb1 x92 xad x15 x0e xd9 xb7)) (C x5f None (C x30 None (C x30 (Some (W xb9 x4f xbf xb4 xd8 x2d x11 x7e)) O
(C x31 (Some (W x06 x4e xbf xb4 xd8 x2c x11 x7e)) O
(C x32 (Some (W x53 x4c xbf xb4 xd8 x2b x11 x7e)) O
O)))
O)
O)
(C x31 (Some (W x67 xb3 x92 xad x15 x0f xd9 xb7)) (C x5f None (C x30 None (C x30 (Some (W x68 x65 x29 x16 xdf x37 x18 xaa)) O
(C x31 (Some (W x1b x67 x29 x16 xdf x38 x18 xaa)) O
(C x32 (Some (W xce x68 x29 x16 xdf x39 x18 xaa)) O
O)))
O)
O)
(C x32 (Some (W x1a xb5 x92 xad x15 x10 xd9 xb7)) (C x5f None (C x30 None (C x30 (Some (W xd7 xa1 x91 x25 xe9 x01 x3b x55)) O
(C x31 (Some (W x24 xa0 x91 x25 xe9 x00 x3b x55)) O
(C x32 (Some (W x3d xa5 x91 x25 xe9 x03 x3b x55)) O
O)))
O)
O)
O)))
O)
O)
(C x31 (Some (W x70 xd5 x94 xb4 x4f x8d x55 xed)) (C x5f None (C x30 None (C x30 (Some (W x65 xe9 x85 x64 x0a x84 xc3 xe2)) (C x5f None (C x30 None (C x30 (Some (W x9e x08 xbb x5e x28 x5d x8a xe3)) O
(C x31 (Some (W x51 x0a xbb x5e x28 x5e x8a xe3)) O
(C x32 (Some (W x38 x05 xbb x5e x28 x5b x8a xe3)) O
O)))
O)
O)
(C x31 (Some (W xb2 xe7 x85 x64 x0a x83 xc3 xe2)) (C x5f None (C x30 None (C x30 (Some (W x6f x5e xdf xfb x21 x53 xd0 xb5)) O
(C x31 (Some (W xbc x5c xdf xfb x21 x52 xd0 xb5)) O
(C x32 (Some (W xd5 x61 xdf xfb x21 x55 xd0 xb5)) O
O)))
O)
O)
(C x32 (Some (W xff xe5 x85 x64 x0a x82 xc3 xe2)) (C x5f None (C x30 None (C x30 (Some (W xc0 x9d x76 xb2 x16 x49 x4e xe0)) O
(C x31 (Some (W x73 x9f x76 xb2 x16 x4a x4e xe0)) O
(C x32 (Some (W x26 xa1 x76 xb2 x16 x4b x4e xe0)) O
O)))
O)
O)
O)))
O)
O)
(C x32 (Some (W x89 xda x94 xb4 x4f x90 x55 xed)) (C x5f None (C x30 None (C x30 (Some (W x92 x69 x7a x1f x26 x42 x49 x90)) (C x5f None (C x30 None (C x30 (Some (W x0f x96 xe7 x27 xcf x62 xd6 x6a)) O
(C x31 (Some (W x5c x94 xe7 x27 xcf x61 xd6 x6a)) O
(C x32 (Some (W x75 x99 xe7 x27 xcf x64 xd6 x6a)) O
O)))
O)
O)
(C x31 (Some (W x45 x6b x7a x1f x26 x43 x49 x90)) (C x5f None (C x30 None (C x30 (Some (W x3e xd2 x50 x89 xd5 xec xdc x96)) O
(C x31 (Some (W xf1 xd3 x50 x89 xd5 xed xdc x96)) O
(C x32 (Some (W xd8 xce x50 x89 xd5 xea xdc x96)) O
O)))
O)
O)
(C x32 (Some (W x2c x66 x7a x1f x26 x40 x49 x90)) (C x5f None (C x30 None (C x30 (Some (W xb1 x04 xff xb5 xbe xae x65 x92)) O
(C x31 (Some (W xfe x02 xff xb5 xbe xad x65 x92)) O
(C x32 (Some (W x4b x01 xff xb5 xbe xac x65 x92)) O
O)))
O)
O)
O)))
O)
O)
(C x33 (Some (W xd6 xd8 x94 xb4 x4f x8f x55 xed)) (C x5f None (C x30 None (C x30 (Some (W xc3 x7a x6e xd6 x1a x38 x34 xbb)) (C x5f None (C x30 None (C x30 (Some (W x94 xc5 x64 xec x49 x96 x38 xcd)) O
(C x31 (Some (W x47 xc7 x64 xec x49 x97 x38 xcd)) O
(C x32 (Some (W xfa xc8 x64 xec x49 x98 x38 xcd)) O
O)))
O)
O)
(C x31 (Some (W x10 x79 x6e xd6 x1a x37 x34 xbb)) (C x5f None (C x30 None (C x30 (Some (W x45 xed xe5 x89 x43 x8c xeb x9f)) O
(C x31 (Some (W x92 xeb xe5 x89 x43 x8b xeb x9f)) O
(C x32 (Some (W xdf xe9 xe5 x89 x43 x8a xeb x9f)) O
O)))
O)
O)
(C x32 (Some (W x29 x7e x6e xd6 x1a x3a x34 xbb)) (C x5f None (C x30 None (C x30 (Some (W xf2 xd2 x4b xd2 x5c x4a x66 xfa)) O
(C x31 (Some (W xa5 xd4 x4b xd2 x5c x4b x66 xfa)) O
(C x32 (Some (W x8c xcf x4b xd2 x5c x48 x66 xfa)) O
O)))
O)
O)
O)))
O)
O)
(C x34 (Some (W xef xdd x94 xb4 x4f x92 x55 xed)) (C x5f None (C x30 None (C x30 (Some (W xf0 xcb x62 x1d x34 xf6 xfb x13)) (C x5f None (C x30 None (C x30 (Some (W xe5 x90 x2c x2e x4c x7e xab xb7)) O
(C x31 (Some (W x32 x8f x2c x2e x4c x7d xab xb7)) O
(C x32 (Some (W x7f x8d x2c x2e x4c x7c xab xb7)) O
O)))
O)
O)
(C x31 (Some (W xa3 xcd x62 x1d x34 xf7 xfb x13)) (C x5f None (C x30 None (C x30 (Some (W x34 x59 x39 x77 x57 x08 xc1 x8c)) O
(C x31 (Some (W xe7 x5a x39 x77 x57 x09 xc1 x8c)) O
(C x32 (Some (W x9a x5c x39 x77 x57 x0a xc1 x8c)) O
O)))
O)
O)
(C x32 (Some (W x56 xcf x62 x1d x34 xf8 xfb x13)) (C x5f None (C x30 None (C x30 (Some (W x43 x22 x15 xa0 x5c x32 x1c x90)) O
(C x31 (Some (W x90 x20 x15 xa0 x5c x31 x1c x90)) O
(C x32 (Some (W xa9 x25 x15 xa0 x5c x34 x1c x90)) O
O)))
O)
O)
O)))
O)
O)
(C x35 (Some (W x3c xdc x94 xb4 x4f x91 x55 xed)) (C x5f None (C x30 None (C x30 (Some (W x01 x2a xe4 xba x2d x0c xaf xe6)) (C x5f None (C x30 None (C x30 (Some (W x8a xa7 xb8 xea x85 x90 xf7 x00)) O
(C x31 (Some (W x3d xa9 xb8 xea x85 x91 xf7 x00)) O
(C x32 (Some (W x24 xa4 xb8 xea x85 x8e xf7 x00)) O
O)))
O)
O)
(C x31 (Some (W x4e x28 xe4 xba x2d x0b xaf xe6)) (C x5f None (C x30 None (C x30 (Some (W x5b xc0 x50 xa1 x7a x06 x76 x2b)) O
(C x31 (Some (W xa8 xbe x50 xa1 x7a x05 x76 x2b)) O
(C x32 (Some (W xc1 xc3 x50 xa1 x7a x08 x76 x2b)) O
O)))
O)
O)
(C x32 (Some (W x9b x26 xe4 xba x2d x0a xaf xe6)) (C x5f None (C x30 None (C x30 (Some (W x0c xa3 x42 x40 x74 x7c xdb xff)) O
(C x31 (Some (W xbf xa4 x42 x40 x74 x7d xdb xff)) O
(C x32 (Some (W x72 xa6 x42 x40 x74 x7e xdb xff)) O
O)))
O)
O)
O)))
O)
O)
(C x36 (Some (W x55 xe1 x94 xb4 x4f x94 x55 xed)) (C x5f None (C x30 None (C x30 (Some (W x8e xf7 x35 x8e x44 x4a x26 xeb)) (C x5f None (C x30 None (C x30 (Some (W x9b x05 x57 x6b x76 x06 x2d x35)) O
(C x31 (Some (W xe8 x03 x57 x6b x76 x05 x2d x35)) O
(C x32 (Some (W x01 x09 x57 x6b x76 x08 x2d x35)) O
O)))
O)
O)
(C x31 (Some (W x41 xf9 x35 x8e x44 x4b x26 xeb)) (C x5f None (C x30 None (C x30 (Some (W xca x41 xc0 xcc x7c x90 x33 x61)) O
(C x31 (Some (W x7d x43 xc0 xcc x7c x91 x33 x61)) O
(C x32 (Some (W x64 x3e xc0 xcc x7c x8e x33 x61)) O
O)))
O)
O)
(C x32 (Some (W x28 xf4 x35 x8e x44 x48 x26 xeb)) (C x5f None (C x30 None (C x30 (Some (W x3d x74 x6e xf9 x65 x52 xbc x5c)) O
(C x31 (Some (W x8a x72 x6e xf9 x65 x51 xbc x5c)) O
(C x32 (Some (W xd7 x70 x6e xf9 x65 x50 xbc x5c)) O
O)))
O)
O)
O)))
O)
O)
(C x37 (Some (W xa2 xdf x94 xb4 x4f x93 x55 xed)) (C x5f None (C x30 None (C x30 (Some (W x9f x8c xcb x66 x3f x00 x7e xe9)) (C x5f None (C x30 None (C x30 (Some (W x20 x37 x68 xa1 x36 x72 x3d xea)) O
(C x31 (Some (W xd3 x38 x68 xa1 x36 x73 x3d xea)) O
(C x32 (Some (W x86 x3a x68 xa1 x36 x74 x3d xea)) O
O)))
O)
O)
(C x31 (Some (W xec x8a xcb x66 x3f xff x7d xe9)) (C x5f None (C x30 None (C x30 (Some (W x71 xbb xe9 x90 x2c xc8 xd3 x3d)) O
(C x31 (Some (W xbe xb9 xe9 x90 x2c xc7 xd3 x3d)) O
(C x32 (Some (W x0b xb8 xe9 x90 x2c xc6 xd3 x3d)) O
O)))
O)
O)
(C x32 (Some (W x05 x90 xcb x66 x3f x02 x7e xe9)) (C x5f None (C x30 None (C x30 (Some (W xfe x33 x3a x4c x48 x06 xc6 xeb)) O
(C x31 (Some (W xb1 x35 x3a x4c x48 x07 xc6 xeb)) O
(C x32 (Some (W x98 x30 x3a x4c x48 x04 xc6 xeb)) O
O)))
O)
O)
O)))
O)
O)
(C x38 (Some (W xbb xe4 x94 xb4 x4f x96 x55 xed)) (C x5f None (C x30 None (C x30 (Some (W xec x04 x1d x74 x57 xfe x53 x18)) (C x5f None (C x30 None (C x30 (Some (W x71 x39 x62 x63 xe1 x54 x66 x18)) O
(C x31 (Some (W xbe x37 x62 x63 xe1 x53 x66 x18)) O
(C x32 (Some (W x0b x36 x62 x63 xe1 x52 x66 x18)) O
O)))
O)
O)
(C x31 (Some (W x9f x06 x1d x74 x57 xff x53 x18)) (C x5f None (C x30 None (C x30 (Some (W x20 xb5 xe0 x73 xeb xfe xcf xc4)) O
(C x31 (Some (W xd3 xb6 xe0 x73 xeb xff xcf xc4)) O
(C x32 (Some (W x86 xb8 xe0 x73 xeb x00 xd0 xc4)) O
O)))
O)
O)
(C x32 (Some (W x52 x08 x1d x74 x57 x00 x54 x18)) (C x5f None (C x30 None (C x30 (Some (W xcf xca x4a xd5 xf1 x08 xd7 xf0)) O
(C x31 (Some (W x1c xc9 x4a xd5 xf1 x07 xd7 xf0)) O
(C x32 (Some (W x35 xce x4a xd5 xf1 x0a xd7 xf0)) O
O)))
O)
O)
O)))
O)
O)
(C x39 (Some (W x08 xe3 x94 xb4 x4f x95 x55 xed)) (C x5f None (C x30 None (C x30 (Some (W xdd x7a xb3 xd8 x4f x54 xee xc1)) (C x5f None (C x30 None (C x30 (Some (W x16 x83 x8f x66 x35 xe8 xc0 x80)) O
(C x31 (Some (W xc9 x84 x8f x66 x35 xe9 xc0 x80)) O
(C x32 (Some (W xb0 x7f x8f x66 x35 xe6 xc0 x80)) O
O)))
O)
O)
(C x31 (Some (W x2a x79 xb3 xd8 x4f x53 xee xc1)) (C x5f None (C x30 None (C x30 (Some (W x67 x20 x82 x3f x30 xbe x85 x7f)) O
(C x31 (Some (W xb4 x1e x82 x3f x30 xbd x85 x7f)) O
(C x32 (Some (W xcd x23 x82 x3f x30 xc0 x85 x7f)) O
O)))
O)
O)
(C x32 (Some (W x77 x77 xb3 xd8 x4f x52 xee xc1)) (C x5f None (C x30 None (C x30 (Some (W x38 xcb xa7 xf4 x24 xb4 x50 xa8)) O
(C x31 (Some (W xeb xcc xa7 xf4 x24 xb5 x50 xa8)) O
(C x32 (Some (W x9e xce xa7 xf4 x24 xb6 x50 xa8)) O
O)))
O)
O)
O)))
O)
O)
O))))))))))
(C x35 None (C x30 (Some (W xfa xf3 x91 xb4 x4f x28 x52 xed)) (C x5f None (C x30 None (C x30 (Some (W xf7 xc2 x4c xdb xe7 xf0 xd1 xc8)) (C x5f None (C x30 None (C x30 (Some (W xb8 x39 x76 xea xc3 xb3 xb1 x13)) O
(C x31 (Some (W x6b x3b x76 xea xc3 xb4 xb1 x13)) O
(C x32 (Some (W x1e x3d x76 xea xc3 xb5 xb1 x13)) O
O)))
O)
O)
(C x31 (Some (W x44 xc1 x4c xdb xe7 xef xd1 xc8)) (C x5f None (C x30 None (C x30 (Some (W x49 x79 x0c x4f xbc xe9 x4b xbd)) O
(C x31 (Some (W x96 x77 x0c x4f xbc xe8 x4b xbd)) O
(C x32 (Some (W xe3 x75 x0c x4f xbc xe7 x4b xbd)) O
O)))
O)
O)
(C x32 (Some (W x5d xc6 x4c xdb xe7 xf2 xd1 xc8)) (C x5f None (C x30 None (C x30 (Some (W x96 xf1 x5d x5c xd4 xe7 x21 xec)) O
(C x31 (Some (W x49 xf3 x5d x5c xd4 xe8 x21 xec)) O
(C x32 (Some (W x30 xee x5d x5c xd4 xe5 x21 xec)) O
O)))
O)
O)
O)))
O)
O)
(C x31 (Some (W xad xf5 x91 xb4 x4f x29 x52 xed)) (C x5f None (C x30 None (C x30 (Some (W x66 x7b x58 x24 xf3 xda xe6 x9d)) (C x5f None (C x30 None (C x30 (Some (W xd3 x2a xfa x25 x3d x7f x74 x88)) O
(C x31 (Some (W x20 x29 xfa x25 x3d x7e x74 x88)) O
(C x32 (Some (W x39 x2e xfa x25 x3d x81 x74 x88)) O
O)))
O)
O)
(C x31 (Some (W x19 x7d x58 x24 xf3 xdb xe6 x9d)) (C x5f None (C x30 None (C x30 (Some (W xe2 x6e x06 x35 x47 xc9 x2a x33)) O
(C x31 (Some (W x95 x70 x06 x35 x47 xca x2a x33)) O
(C x32 (Some (W x7c x6b x06 x35 x47 xc7 x2a x33)) O
O)))
O)
O)
(C x32 (Some (W x00 x78 x58 x24 xf3 xd8 xe6 x9d)) (C x5f None (C x30 None (C x30 (Some (W x75 xc8 x11 x28 x2f xcb xc1 x04)) O
(C x31 (Some (W xc2 xc6 x11 x28 x2f xca xc1 x04)) O
(C x32 (Some (W x0f xc5 x11 x28 x2f xc9 xc1 x04)) O
O)))
O)
O)
O)))
O)
O)
(C x32 (Some (W x94 xf0 x91 xb4 x4f x26 x52 xed)) (C x5f None (C x30 None (C x30 (Some (W x59 x58 x07 xdd xd9 x1c xb2 x44)) (C x5f None (C x30 None (C x30 (Some (W x22 x0d x1d x72 xd4 xaf x41 xde)) O
(C x31 (Some (W xd5 x0e x1d x72 xd4 xb0 x41 xde)) O
(C x32 (Some (W xbc x09 x1d x72 xd4 xad x41 xde)) O
O)))
O)
O)
(C x31 (Some (W xa6 x56 x07 xdd xd9 x1b xb2 x44)) (C x5f None (C x30 None (C x30 (Some (W x13 x74 x0f x4b xcf x65 x06 xdd)) O
(C x31 (Some (W x60 x72 x0f x4b xcf x64 x06 xdd)) O
(C x32 (Some (W x79 x77 x0f x4b xcf x67 x06 xdd)) O
O)))
O)
O)
(C x32 (Some (W xf3 x54 x07 xdd xd9 x1a xb2 x44)) (C x5f None (C x30 None (C x30 (Some (W xc4 xe9 xa6 x01 xc4 x7b x84 x07)) O
(C x31 (Some (W x77 xeb xa6 x01 xc4 x7c x84 x07)) O
(C x32 (Some (W x2a xed xa6 x01 xc4 x7d x84 x07)) O
O)))
O)
O)
O)))
O)
O)
(C x33 (Some (W x47 xf2 x91 xb4 x4f x27 x52 xed)) (C x5f None (C x30 None (C x30 (Some (W x88 x02 xe3 x3f xe0 x26 x6c x72)) (C x5f None (C x30 None (C x30 (Some (W x5d x85 xa3 xd5 x10 x66 xac xfc)) O
(C x31 (Some (W xaa x83 xa3 xd5 x10 x65 xac xfc)) O
(C x32 (Some (W xf7 x81 xa3 xd5 x10 x64 xac xfc)) O
O)))
O)
O)
(C x31 (Some (W x3b x04 xe3 x3f xe0 x27 x6c x72)) (C x5f None (C x30 None (C x30 (Some (W x6c x0f x0d x71 x18 x10 x12 x53)) O
(C x31 (Some (W x1f x11 x0d x71 x18 x11 x12 x53)) O
(C x32 (Some (W xd2 x12 x0d x71 x18 x12 x12 x53)) O
O)))
O)
O)
(C x32 (Some (W xee x05 xe3 x3f xe0 x28 x6c x72)) (C x5f None (C x30 None (C x30 (Some (W xbb xe7 x8b xd3 x1e x1a x5f x80)) O
(C x31 (Some (W x08 xe6 x8b xd3 x1e x19 x5f x80)) O
(C x32 (Some (W x21 xeb x8b xd3 x1e x1c x5f x80)) O
O)))
O)
O)
O)))
O)
O)
(C x34 (Some (W x2e xed x91 xb4 x4f x24 x52 xed)) (C x5f None (C x30 None (C x30 (Some (W xfb x34 x91 x6c xc9 xe8 xf4 x6d)) (C x5f None (C x30 None (C x30 (Some (W x2c xca x06 xa7 x1c x10 x5b x49)) O
(C x31 (Some (W xdf xcb x06 xa7 x1c x11 x5b x49)) O
(C x32 (Some (W x92 xcd x06 xa7 x1c x12 x5b x49)) O
O)))
O)
O)
(C x31 (Some (W x48 x33 x91 x6c xc9 xe7 xf4 x6d)) (C x5f None (C x30 None (C x30 (Some (W x1d x40 x9d x0b x15 x66 xf5 xf2)) O
(C x31 (Some (W x6a x3e x9d x0b x15 x65 xf5 xf2)) O
(C x32 (Some (W xb7 x3c x9d x0b x15 x64 xf5 xf2)) O
O)))
O)
O)
(C x32 (Some (W x61 x38 x91 x6c xc9 xea xf4 x6d)) (C x5f None (C x30 None (C x30 (Some (W x2a x63 xee x52 x2e x24 x2a x4c)) O
(C x31 (Some (W xdd x64 xee x52 x2e x25 x2a x4c)) O
(C x32 (Some (W xc4 x5f xee x52 x2e x22 x2a x4c)) O
O)))
O)
O)
O)))
O)
O)
(C x35 (Some (W xe1 xee x91 xb4 x4f x25 x52 xed)) (C x5f None (C x30 None (C x30 (Some (W xaa x4a xfb xcd xcf xf2 xfb x99)) (C x5f None (C x30 None (C x30 (Some (W xe7 x10 xd8 x62 x1a x31 x54 x10)) O
(C x31 (Some (W x34 x0f xd8 x62 x1a x30 x54 x10)) O
(C x32 (Some (W x4d x14 xd8 x62 x1a x33 x54 x10)) O
O)))
O)
O)
(C x31 (Some (W x5d x4c xfb xcd xcf xf3 xfb x99)) (C x5f None (C x30 None (C x30 (Some (W x96 x73 xe5 x89 x1f x5b x8f x11)) O
(C x31 (Some (W x49 x75 xe5 x89 x1f x5c x8f x11)) O
(C x32 (Some (W x30 x70 xe5 x89 x1f x59 x8f x11)) O
O)))
O)
O)
(C x32 (Some (W x44 x47 xfb xcd xcf xf0 xfb x99)) (C x5f None (C x30 None (C x30 (Some (W x49 xfb x93 x7c x07 x5d xb9 xe2)) O
(C x31 (Some (W x96 xf9 x93 x7c x07 x5c xb9 xe2)) O
(C x32 (Some (W xe3 xf7 x93 x7c x07 x5b xb9 xe2)) O
O)))
O)
O)
O)))
O)
O)
(C x36 (Some (W xc8 xe9 x91 xb4 x4f x22 x52 xed)) (C x5f None (C x30 None (C x30 (Some (W x9d x27 xaa x86 xb6 x34 xc7 x40)) (C x5f None (C x30 None (C x30 (Some (W xd6 xbc xfa xae xb1 x41 x21 x66)) O
(C x31 (Some (W x89 xbe xfa xae xb1 x42 x21 x66)) O
(C x32 (Some (W x70 xb9 xfa xae xb1 x3f x21 x66)) O
O)))
O)
O)
(C x31 (Some (W xea x25 xaa x86 xb6 x33 xc7 x40)) (C x5f None (C x30 None (C x30 (Some (W x27 xaf xee x9f xa7 x17 x6b xbb)) O
(C x31 (Some (W x74 xad xee x9f xa7 x16 x6b xbb)) O
(C x32 (Some (W x8d xb2 xee x9f xa7 x19 x6b xbb)) O
O)))
O)
O)
(C x32 (Some (W x37 x24 xaa x86 xb6 x32 xc7 x40)) (C x5f None (C x30 None (C x30 (Some (W xf8 x04 x13 x3d xa1 x0d xb1 x8d)) O
(C x31 (Some (W xab x06 x13 x3d xa1 x0e xb1 x8d)) O
(C x32 (Some (W x5e x08 x13 x3d xa1 x0f xb1 x8d)) O
O)))
O)
O)
O)))
O)
O)
(C x37 (Some (W x7b xeb x91 xb4 x4f x23 x52 xed)) (C x5f None (C x30 None (C x30 (Some (W xac xb1 x13 x22 xbe xde x2c x97)) (C x5f None (C x30 None (C x30 (Some (W x31 x73 xcd xab x5d xae xc6 xfd)) O
(C x31 (Some (W x7e x71 xcd xab x5d xad xc6 xfd)) O
(C x32 (Some (W xcb x6f xcd xab x5d xac xc6 xfd)) O
O)))
O)
O)
(C x31 (Some (W x5f xb3 x13 x22 xbe xdf x2c x97)) (C x5f None (C x30 None (C x30 (Some (W xe0 x43 x4d xd4 x62 x58 xb5 x00)) O
(C x31 (Some (W x93 x45 x4d xd4 x62 x59 xb5 x00)) O
(C x32 (Some (W x46 x47 x4d xd4 x62 x5a xb5 x00)) O
O)))
O)
O)
(C x32 (Some (W x12 xb5 x13 x22 xbe xe0 x2c x97)) (C x5f None (C x30 None (C x30 (Some (W x8f x04 xb6 x1d x6e x62 x37 xd6)) O
(C x31 (Some (W xdc x02 xb6 x1d x6e x61 x37 xd6)) O
(C x32 (Some (W xf5 x07 xb6 x1d x6e x64 x37 xd6)) O
O)))
O)
O)
O)))
O)
O)
(C x38 (Some (W x62 xe6 x91 xb4 x4f x20 x52 xed)) (C x5f None (C x30 None (C x30 (Some (W x5f x39 xc2 x14 xa6 xe0 x56 x68)) (C x5f None (C x30 None (C x30 (Some (W xe0 xc5 xd4 x01 xae xcb x22 x26)) O
(C x31 (Some (W x93 xc7 xd4 x01 xae xcc x22 x26)) O
(C x32 (Some (W x46 xc9 xd4 x01 xae xcd x22 x26)) O
O)))
O)
O)
(C x31 (Some (W xac x37 xc2 x14 xa6 xdf x56 x68)) (C x5f None (C x30 None (C x30 (Some (W x31 xf5 x54 xd9 xa8 x21 x34 x23)) O
(C x31 (Some (W x7e xf3 x54 xd9 xa8 x20 x34 x23)) O
(C x32 (Some (W xcb xf1 x54 xd9 xa8 x1f x34 x23)) O
O)))
O)
O)
(C x32 (Some (W xc5 x3c xc2 x14 xa6 xe2 x56 x68)) (C x5f None (C x30 None (C x30 (Some (W xbe xc2 xa6 xac xbf x5f xab x27)) O
(C x31 (Some (W x71 xc4 xa6 xac xbf x60 xab x27)) O
(C x32 (Some (W x58 xbf xa6 xac xbf x5d xab x27)) O
O)))
O)
O)
O)))
O)
O)
(C x39 (Some (W x15 xe8 x91 xb4 x4f x21 x52 xed)) (C x5f None (C x30 None (C x30 (Some (W x4e x4f x2b x24 xb0 x2a x7a x13)) (C x5f None (C x30 None (C x30 (Some (W x5b xcd x89 xbd xdb x92 x76 x07)) O
(C x31 (Some (W xa8 xcb x89 xbd xdb x91 x76 x07)) O
(C x32 (Some (W xc1 xd0 x89 xbd xdb x94 x76 x07)) O
O)))
O)
O)
(C x31 (Some (W x01 x51 x2b x24 xb0 x2b x7a x13)) (C x5f None (C x30 None (C x30 (Some (W x8a xb4 xf1 x06 xe7 x1c xf8 xdc)) O
(C x31 (Some (W x3d xb6 xf1 x06 xe7 x1d xf8 xdc)) O
(C x32 (Some (W x24 xb1 xf1 x06 xe7 x1a xf8 xdc)) O
O)))
O)
O)
(C x32 (Some (W xe8 x4b x2b x24 xb0 x28 x7a x13)) (C x5f None (C x30 None (C x30 (Some (W xfd x3b xa1 x4b xcb xde x05 x2f)) O
(C x31 (Some (W x4a x3a xa1 x4b xcb xdd x05 x2f)) O
(C x32 (Some (W x97 x38 xa1 x4b xcb xdc x05 x2f)) O
O)))
O)
O)
O)))
O)
O)
O))))))))))
(C x36 None (C x30 (Some (W x71 xda x8e xb4 x4f xa2 x4e xed)) (C x5f None (C x30 None (C x30 (Some (W xfa x12 x39 xef xb2 x52 x4b x58)) (C x5f None (C x30 None (C x30 (Some (W xf7 x77 xb0 xd2 xaa x3e xa9 x04)) O
(C x31 (Some (W x44 x76 xb0 xd2 xaa x3d xa9 x04)) O
(C x32 (Some (W x5d x7b xb0 xd2 xaa x40 xa9 x04)) O
O)))
O)
O)
(C x31 (Some (W xad x14 x39 xef xb2 x53 x4b x58)) (C x5f None (C x30 None (C x30 (Some (W x66 x30 xbc x1b xb6 x28 xbe xd9)) O
(C x31 (Some (W x19 x32 xbc x1b xb6 x29 xbe xd9)) O
(C x32 (Some (W x00 x2d xbc x1b xb6 x26 xbe xd9)) O
O)))
O)
O)
(C x32 (Some (W x94 x0f x39 xef xb2 x50 x4b x58)) (C x5f None (C x30 None (C x30 (Some (W x59 x0d x6b xd4 x9c x6a x89 x80)) O
(C x31 (Some (W xa6 x0b x6b xd4 x9c x69 x89 x80)) O
(C x32 (Some (W xf3 x09 x6b xd4 x9c x68 x89 x80)) O
O)))
O)
O)
O)))
O)
O)
(C x31 (Some (W xbe xd8 x8e xb4 x4f xa1 x4e xed)) (C x5f None (C x30 None (C x30 (Some (W x4b xfd xce x8d xac x48 x44 x2c)) (C x5f None (C x30 None (C x30 (Some (W x7c x31 xde xc4 xb0 x5d xcc xbc)) O
(C x31 (Some (W x2f x33 xde xc4 xb0 x5e xcc xbc)) O
(C x32 (Some (W xe2 x34 xde xc4 xb0 x5f xcc xbc)) O
O)))
O)
O)
(C x31 (Some (W x98 xfb xce x8d xac x47 x44 x2c)) (C x5f None (C x30 None (C x30 (Some (W x2d x52 x74 x63 xaa x73 xc5 x90)) O
(C x31 (Some (W x7a x50 x74 x63 xaa x72 xc5 x90)) O
(C x32 (Some (W xc7 x4e x74 x63 xaa x71 xc5 x90)) O
O)))
O)
O)
(C x32 (Some (W xb1 x00 xcf x8d xac x4a x44 x2c)) (C x5f None (C x30 None (C x30 (Some (W x3a x75 xc5 xaa xc3 x31 xfa xe9)) O
(C x31 (Some (W xed x76 xc5 xaa xc3 x32 xfa xe9)) O
(C x32 (Some (W xd4 x71 xc5 xaa xc3 x2f xfa xe9)) O
O)))
O)
O)
O)))
O)
O)
(C x32 (Some (W x0b xd7 x8e xb4 x4f xa0 x4e xed)) (C x5f None (C x30 None (C x30 (Some (W x3c x7a x50 xf1 xa4 x7e x98 xd4)) (C x5f None (C x30 None (C x30 (Some (W x01 xb4 xfa x04 x23 xe2 xa4 xb7)) O
(C x31 (Some (W x4e xb2 xfa x04 x23 xe1 xa4 xb7)) O
(C x32 (Some (W x9b xb0 xfa x04 x23 xe0 xa4 xb7)) O
O)))
O)
O)
(C x31 (Some (W xef x7b x50 xf1 xa4 x7f x98 xd4)) (C x5f None (C x30 None (C x30 (Some (W xf0 x55 x79 x67 x29 xcc xf1 xe4)) O
(C x31 (Some (W xa3 x57 x79 x67 x29 xcd xf1 xe4)) O
(C x32 (Some (W x56 x59 x79 x67 x29 xce xf1 xe4)) O
O)))
O)
O)
(C x32 (Some (W xa2 x7d x50 xf1 xa4 x80 x98 xd4)) (C x5f None (C x30 None (C x30 (Some (W x9f x16 xe2 xb0 x34 xd6 x73 xba)) O
(C x31 (Some (W xec x14 xe2 xb0 x34 xd5 x73 xba)) O
(C x32 (Some (W x05 x1a xe2 xb0 x34 xd8 x73 xba)) O
O)))
O)
O)
O)))
O)
O)
(C x33 (Some (W x58 xd5 x8e xb4 x4f x9f x4e xed)) (C x5f None (C x30 None (C x30 (Some (W xed xef xe7 xa7 x99 x94 x16 xff)) (C x5f None (C x30 None (C x30 (Some (W xa6 xce xd2 x58 x43 x0f xd5 x84)) O
(C x31 (Some (W x59 xd0 xd2 x58 x43 x10 xd5 x84)) O
(C x32 (Some (W x40 xcb xd2 x58 x43 x0d xd5 x84)) O
O)))
O)
O)
(C x31 (Some (W x3a xee xe7 xa7 x99 x93 x16 xff)) (C x5f None (C x30 None (C x30 (Some (W x37 xc1 xc5 xf7 x3c x25 x3b x59)) O
(C x31 (Some (W x84 xbf xc5 xf7 x3c x24 x3b x59)) O
(C x32 (Some (W x9d xc4 xc5 xf7 x3c x27 x3b x59)) O
O)))
O)
O)
(C x32 (Some (W x87 xec xe7 xa7 x99 x92 x16 xff)) (C x5f None (C x30 None (C x30 (Some (W xc8 x00 x5c x5c x35 x5b xd5 x02)) O
(C x31 (Some (W x7b x02 x5c x5c x35 x5c xd5 x02)) O
(C x32 (Some (W x2e x04 x5c x5c x35 x5d xd5 x02)) O
O)))
O)
O)
O)))
O)
O)
(C x34 (Some (W x3d xe1 x8e xb4 x4f xa6 x4e xed)) (C x5f None (C x30 None (C x30 (Some (W xb6 xb1 x08 x47 xd6 xba xe9 x5d)) (C x5f None (C x30 None (C x30 (Some (W xe3 xb6 x64 x40 x3c x26 x0c x7b)) O
(C x31 (Some (W x30 xb5 x64 x40 x3c x25 x0c x7b)) O
(C x32 (Some (W x49 xba x64 x40 x3c x28 x0c x7b)) O
O)))
O)
O)
(C x31 (Some (W x69 xb3 x08 x47 xd6 xbb xe9 x5d)) (C x5f None (C x30 None (C x30 (Some (W x32 x8f xe3 xa2 x42 x30 x59 xa8)) O
(C x31 (Some (W xe5 x90 xe3 xa2 x42 x31 x59 xa8)) O
(C x32 (Some (W xcc x8b xe3 xa2 x42 x2e x59 xa8)) O
O)))
O)
O)
(C x32 (Some (W x50 xae x08 x47 xd6 xb8 xe9 x5d)) (C x5f None (C x30 None (C x30 (Some (W x85 xa9 x7d x5a x29 x72 xde x4d)) O
(C x31 (Some (W xd2 xa7 x7d x5a x29 x71 xde x4d)) O
(C x32 (Some (W x1f xa6 x7d x5a x29 x70 xde x4d)) O
O)))
O)
O)
O)))
O)
O)
(C x35 (Some (W x8a xdf x8e xb4 x4f xa5 x4e xed)) (C x5f None (C x30 None (C x30 (Some (W x87 x8b x89 xaa xce x90 x3d x06)) (C x5f None (C x30 None (C x30 (Some (W xc8 x35 x13 xf3 x8c xa7 x5e x4e)) O
(C x31 (Some (W x7b x37 x13 xf3 x8c xa8 x5e x4e)) O
(C x32 (Some (W x2e x39 x13 xf3 x8c xa9 x5e x4e)) O
O)))
O)
O)
(C x31 (Some (W xd4 x89 x89 xaa xce x8f x3d x06)) (C x5f None (C x30 None (C x30 (Some (W x99 xe0 x38 xa8 x81 x9d x29 x77)) O
(C x31 (Some (W xe6 xde x38 xa8 x81 x9c x29 x77)) O
(C x32 (Some (W x33 xdd x38 xa8 x81 x9b x29 x77)) O
O)))
O)
O)
(C x32 (Some (W xed x8e x89 xaa xce x92 x3d x06)) (C x5f None (C x30 None (C x30 (Some (W xa6 x03 x8a xef x9a x5b x5e xd0)) O
(C x31 (Some (W x59 x05 x8a xef x9a x5c x5e xd0)) O
(C x32 (Some (W x40 x00 x8a xef x9a x59 x5e xd0)) O
O)))
O)
O)
O)))
O)
O)
(C x36 (Some (W xd7 xdd x8e xb4 x4f xa4 x4e xed)) (C x5f None (C x30 None (C x30 (Some (W xd8 xca x20 x61 xc3 x86 xbb x30)) (C x5f None (C x30 None (C x30 (Some (W x6d xec x7b x45 xa1 x73 x01 xf1)) O
(C x31 (Some (W xba xea x7b x45 xa1 x72 x01 xf1)) O
(C x32 (Some (W x07 xe9 x7b x45 xa1 x71 x01 xf1)) O
O)))
O)
O)
(C x31 (Some (W x8b xcc x20 x61 xc3 x87 xbb x30)) (C x5f None (C x30 None (C x30 (Some (W xbc x76 xe4 x8e xac x5d x83 xc6)) O
(C x31 (Some (W x6f x78 xe4 x8e xac x5e x83 xc6)) O
(C x32 (Some (W x22 x7a xe4 x8e xac x5f x83 xc6)) O
O)))
O)
O)
(C x32 (Some (W x3e xce x20 x61 xc3 x88 xbb x30)) (C x5f None (C x30 None (C x30 (Some (W xcb xf9 x62 x2b xb4 x27 x2f x1e)) O
(C x31 (Some (W x18 xf8 x62 x2b xb4 x26 x2f x1e)) O
(C x32 (Some (W x31 xfd x62 x2b xb4 x29 x2f x1e)) O
O)))
O)
O)
O)))
O)
O)
(C x37 (Some (W x24 xdc x8e xb4 x4f xa3 x4e xed)) (C x5f None (C x30 None (C x30 (Some (W x69 x39 xb7 x39 xbe xbc x13 x2f)) (C x5f None (C x30 None (C x30 (Some (W x32 x11 x6b xd0 x8d xa3 xc6 xcd)) O
(C x31 (Some (W xe5 x12 x6b xd0 x8d xa4 xc6 xcd)) O
(C x32 (Some (W xcc x0d x6b xd0 x8d xa1 xc6 xcd)) O
O)))
O)
O)
(C x31 (Some (W xb6 x37 xb7 x39 xbe xbb x13 x2f)) (C x5f None (C x30 None (C x30 (Some (W xe3 x38 xec x6d x87 x99 x79 xa0)) O
(C x31 (Some (W x30 x37 xec x6d x87 x98 x79 xa0)) O
(C x32 (Some (W x49 x3c xec x6d x87 x9b x79 xa0)) O
O)))
O)
O)
(C x32 (Some (W x03 x36 xb7 x39 xbe xba x13 x2f)) (C x5f None (C x30 None (C x30 (Some (W xd4 xae x82 xd2 x7f xef x13 x4a)) O
(C x31 (Some (W x87 xb0 x82 xd2 x7f xf0 x13 x4a)) O
(C x32 (Some (W x3a xb2 x82 xd2 x7f xf1 x13 x4a)) O
O)))
O)
O)
O)))
O)
O)
(C x38 (Some (W xd9 xcc x8e xb4 x4f x9a x4e xed)) (C x5f None (C x30 None (C x30 (Some (W xa2 xde xae xee x6f x82 x71 xcd)) (C x5f None (C x30 None (C x30 (Some (W x9f xe1 x2a x1a xdd x89 xea x6e)) O
(C x31 (Some (W xec xdf x2a x1a xdd x88 xea x6e)) O
(C x32 (Some (W x05 xe5 x2a x1a xdd x8b xea x6e)) O
O)))
O)
O)
(C x31 (Some (W x55 xe0 xae xee x6f x83 x71 xcd)) (C x5f None (C x30 None (C x30 (Some (W x8e x4c x95 x41 xe2 xd3 x92 x70)) O
(C x31 (Some (W x41 x4e x95 x41 xe2 xd4 x92 x70)) O
(C x32 (Some (W x28 x49 x95 x41 xe2 xd1 x92 x70)) O
O)))
O)
O)
(C x32 (Some (W x3c xdb xae xee x6f x80 x71 xcd)) (C x5f None (C x30 None (C x30 (Some (W x01 x7f x43 x6e xcb x95 x1b x6c)) O
(C x31 (Some (W x4e x7d x43 x6e xcb x94 x1b x6c)) O
(C x32 (Some (W x9b x7b x43 x6e xcb x93 x1b x6c)) O
O)))
O)
O)
O)))
O)
O)
(C x39 (Some (W x26 xcb x8e xb4 x4f x99 x4e xed)) (C x5f None (C x30 None (C x30 (Some (W x93 x45 xa1 xc7 x6a x38 x36 xcc)) (C x5f None (C x30 None (C x30 (Some (W x24 x83 xdf x86 x02 xbd xa8 xb7)) O
(C x31 (Some (W xd7 x84 xdf x86 x02 xbe xa8 xb7)) O
(C x32 (Some (W x8a x86 xdf x86 x02 xbf xa8 xb7)) O
O)))
O)
O)
(C x31 (Some (W xe0 x43 xa1 xc7 x6a x37 x36 xcc)) (C x5f None (C x30 None (C x30 (Some (W x15 x3f xd3 x77 xf8 x72 xf2 x0c)) O
(C x31 (Some (W x62 x3d xd3 x77 xf8 x71 xf2 x0c)) O
(C x32 (Some (W xaf x3b xd3 x77 xf8 x70 xf2 x0c)) O
O)))
O)
O)
(C x32 (Some (W xf9 x48 xa1 xc7 x6a x3a x36 xcc)) (C x5f None (C x30 None (C x30 (Some (W x02 xbf xc8 x84 x10 xf1 x5b x3b)) O
(C x31 (Some (W xb5 xc0 xc8 x84 x10 xf2 x5b x3b)) O
(C x32 (Some (W x9c xbb xc8 x84 x10 xef x5b x3b)) O
O)))
O)
O)
O)))
O)
O)
O))))))))))
(C x37 None (C x30 (Some (W x68 x9a x8c xb4 x4f x9c x4b xed)) (C x5f None (C x30 None (C x30 (Some (W x7d xab x03 x1e xa9 xb8 x1a xe5)) (C x5f None (C x30 None (C x30 (Some (W xf6 xf4 x77 xa4 xba xee x71 x9e)) O
(C x31 (Some (W xa9 xf6 x77 xa4 xba xef x71 x9e)) O
(C x32 (Some (W x90 xf1 x77 xa4 xba xec x71 x9e)) O
O)))
O)
O)
(C x31 (Some (W xca xa9 x03 x1e xa9 xb7 x1a xe5)) (C x5f None (C x30 None (C x30 (Some (W xc7 xce xf8 x07 xb3 xc4 xc5 x46)) O
(C x31 (Some (W x14 xcd xf8 x07 xb3 xc3 xc5 x46)) O
(C x32 (Some (W x2d xd2 xf8 x07 xb3 xc6 xc5 x46)) O
O)))
O)
O)
(C x32 (Some (W x17 xa8 x03 x1e xa9 xb6 x1a xe5)) (C x5f None (C x30 None (C x30 (Some (W x18 xb9 x8e xa6 xac xba xbe x1a)) O
(C x31 (Some (W xcb xba x8e xa6 xac xbb xbe x1a)) O
(C x32 (Some (W x7e xbc x8e xa6 xac xbc xbe x1a)) O
O)))
O)
O)
O)))
O)
O)
(C x31 (Some (W x1b x9c x8c xb4 x4f x9d x4b xed)) (C x5f None (C x30 None (C x30 (Some (W x8c x1f xde x2e xb3 xe2 xf0 x91)) (C x5f None (C x30 None (C x30 (Some (W xd1 x4e xe2 xb5 x1e x8a x78 x2d)) O
(C x31 (Some (W x1e x4d xe2 xb5 x1e x89 x78 x2d)) O
(C x32 (Some (W x6b x4b xe2 xb5 x1e x88 x78 x2d)) O
O)))
O)
O)
(C x31 (Some (W x3f x21 xde x2e xb3 xe3 xf0 x91)) (C x5f None (C x30 None (C x30 (Some (W x00 x07 xef x50 x26 x34 x71 x83)) O
(C x31 (Some (W xb3 x08 xef x50 x26 x35 x71 x83)) O
(C x32 (Some (W x66 x0a xef x50 x26 x36 x71 x83)) O
O)))
O)
O)
(C x32 (Some (W xf2 x22 xde x2e xb3 xe4 xf0 x91)) (C x5f None (C x30 None (C x30 (Some (W xaf x1c x59 xb2 x2c x3e x78 xaf)) O
(C x31 (Some (W xfc x1a x59 xb2 x2c x3d x78 xaf)) O
(C x32 (Some (W x15 x20 x59 xb2 x2c x40 x78 xaf)) O
O)))
O)
O)
O)))
O)
O)
(C x32 (Some (W xce x9d x8c xb4 x4f x9e x4b xed)) (C x5f None (C x30 None (C x30 (Some (W xdb x3c xec x8f xb9 x6c x8b xbd)) (C x5f None (C x30 None (C x30 (Some (W x4c xaa x7d x32 xdc xa7 x8c x88)) O
(C x31 (Some (W xff xab x7d x32 xdc xa8 x8c x88)) O
(C x32 (Some (W xb2 xad x7d x32 xdc xa9 x8c x88)) O
O)))
O)
O)
(C x31 (Some (W x28 x3b xec x8f xb9 x6b x8b xbd)) (C x5f None (C x30 None (C x30 (Some (W x3d xe1 xa1 x09 xd7 x7d x31 x85)) O
(C x31 (Some (W x8a xdf xa1 x09 xd7 x7c x31 x85)) O
(C x32 (Some (W xd7 xdd xa1 x09 xd7 x7b x31 x85)) O
O)))
O)
O)
(C x32 (Some (W x41 x40 xec x8f xb9 x6e x8b xbd)) (C x5f None (C x30 None (C x30 (Some (W xca xae xf3 xdc xed xbb xa8 x89)) O
(C x31 (Some (W x7d xb0 xf3 xdc xed xbc xa8 x89)) O
(C x32 (Some (W x64 xab xf3 xdc xed xb9 xa8 x89)) O
O)))
O)
O)
O)))
O)
O)
(C x33 (Some (W x81 x9f x8c xb4 x4f x9f x4b xed)) (C x5f None (C x30 None (C x30 (Some (W x0a x24 x54 xd9 xc4 xf6 x0c x93)) (C x5f None (C x30 None (C x30 (Some (W x07 x4d xc5 xc3 x9c xf7 xe0 xe6)) O
(C x31 (Some (W x54 x4b xc5 xc3 x9c xf6 xe0 xe6)) O
(C x32 (Some (W x6d x50 xc5 xc3 x9c xf9 xe0 xe6)) O
O)))
O)
O)
(C x31 (Some (W xbd x25 x54 xd9 xc4 xf7 x0c x93)) (C x5f None (C x30 None (C x30 (Some (W x36 x73 x44 x60 xa4 x21 x8d x3e)) O
(C x31 (Some (W xe9 x74 x44 x60 xa4 x22 x8d x3e)) O
(C x32 (Some (W xd0 x6f x44 x60 xa4 x1f x8d x3e)) O
O)))
O)
O)
(C x32 (Some (W xa4 x20 x54 xd9 xc4 xf4 x0c x93)) (C x5f None (C x30 None (C x30 (Some (W xe9 xfa xf2 x52 x8c x23 xb7 x0f)) O
(C x31 (Some (W x36 xf9 xf2 x52 x8c x22 xb7 x0f)) O
(C x32 (Some (W x83 xf7 xf2 x52 x8c x21 xb7 x0f)) O
O)))
O)
O)
O)))
O)
O)
(C x34 (Some (W x34 xa1 x8c xb4 x4f xa0 x4b xed)) (C x5f None (C x30 None (C x30 (Some (W x39 x4a xd3 x75 xcc x20 xb9 xea)) (C x5f None (C x30 None (C x30 (Some (W x42 x6a x2c x12 x4c xf6 xd4 x14)) O
(C x31 (Some (W xf5 x6b x2c x12 x4c xf7 xd4 x14)) O
(C x32 (Some (W xdc x66 x2c x12 x4c xf4 xd4 x14)) O
O)))
O)
O)
(C x31 (Some (W x86 x48 xd3 x75 xcc x1f xb9 xea)) (C x5f None (C x30 None (C x30 (Some (W xb3 x0d xad x75 x44 xac x28 xbd)) O
(C x31 (Some (W x00 x0c xad x75 x44 xab x28 xbd)) O
(C x32 (Some (W x19 x11 xad x75 x44 xae x28 xbd)) O
O)))
O)
O)
(C x32 (Some (W xd3 x46 xd3 x75 xcc x1e xb9 xea)) (C x5f None (C x30 None (C x30 (Some (W x64 x83 x44 x2c x39 xc2 xa6 xe7)) O
(C x31 (Some (W x17 x85 x44 x2c x39 xc3 xa6 xe7)) O
(C x32 (Some (W xca x86 x44 x2c x39 xc4 xa6 xe7)) O
O)))
O)
O)
O)))
O)
O)
(C x35 (Some (W xe7 xa2 x8c xb4 x4f xa1 x4b xed)) (C x5f None (C x30 None (C x30 (Some (W xe8 x5f x3d xd7 xd2 x2a xc0 x16)) (C x5f None (C x30 None (C x30 (Some (W xfd x97 x8c xe4 x44 x97 x9f x30)) O
(C x31 (Some (W x4a x96 x8c xe4 x44 x96 x9f x30)) O
(C x32 (Some (W x97 x94 x8c xe4 x44 x95 x9f x30)) O
O)))
O)
O)
(C x31 (Some (W x9b x61 x3d xd7 xd2 x2b xc0 x16)) (C x5f None (C x30 None (C x30 (Some (W x0c x0c x67 xf5 x4e xc1 x75 xdd)) O
(C x31 (Some (W xbf x0d x67 xf5 x4e xc2 x75 xdd)) O
(C x32 (Some (W x72 x0f x67 xf5 x4e xc3 x75 xdd)) O
O)))
O)
O)
(C x32 (Some (W x4e x63 x3d xd7 xd2 x2c xc0 x16)) (C x5f None (C x30 None (C x30 (Some (W x5b x29 x75 x56 x55 x4b x10 x09)) O
(C x31 (Some (W xa8 x27 x75 x56 x55 x4a x10 x09)) O
(C x32 (Some (W xc1 x2c x75 x56 x55 x4d x10 x09)) O
O)))
O)
O)
O)))
O)
O)
(C x36 (Some (W x9a xa4 x8c xb4 x4f xa2 x4b xed)) (C x5f None (C x30 None (C x30 (Some (W x57 x9c xa5 xe6 xdc xf4 xe2 xc1)) (C x5f None (C x30 None (C x30 (Some (W x58 x0a xd5 x4c x46 x7a xf1 xeb)) O
(C x31 (Some (W x0b x0c xd5 x4c x46 x7b xf1 xeb)) O
(C x32 (Some (W xbe x0d xd5 x4c x46 x7c xf1 xeb)) O
O)))
O)
O)
(C x31 (Some (W xa4 x9a xa5 xe6 xdc xf3 xe2 xc1)) (C x5f None (C x30 None (C x30 (Some (W xe9 x78 x6b x25 x41 xb0 x49 xea)) O
(C x31 (Some (W x36 x77 x6b x25 x41 xaf x49 xea)) O
(C x32 (Some (W x83 x75 x6b x25 x41 xae x49 xea)) O
O)))
O)
O)
(C x32 (Some (W xbd x9f xa5 xe6 xdc xf6 xe2 xc1)) (C x5f None (C x30 None (C x30 (Some (W x36 xf1 xbc x32 x59 xae x1f x19)) O
(C x31 (Some (W xe9 xf2 xbc x32 x59 xaf x1f x19)) O
(C x32 (Some (W xd0 xed xbc x32 x59 xac x1f x19)) O
O)))
O)
O)
O)))
O)
O)
(C x37 (Some (W x4d xa6 x8c xb4 x4f xa3 x4b xed)) (C x5f None (C x30 None (C x30 (Some (W xc6 x17 x25 x49 xe3 x5e x30 xef)) (C x5f None (C x30 None (C x30 (Some (W xf3 xa7 xb4 x57 x3b xac x64 x1d)) O
(C x31 (Some (W x40 xa6 xb4 x57 x3b xab x64 x1d)) O
(C x32 (Some (W x59 xab xb4 x57 x3b xae x64 x1d)) O
O)))
O)
O)
(C x31 (Some (W x79 x19 x25 x49 xe3 x5f x30 xef)) (C x5f None (C x30 None (C x30 (Some (W x82 x04 x34 xf4 x42 xf6 x10 x75)) O
(C x31 (Some (W x35 x06 x34 xf4 x42 xf7 x10 x75)) O
(C x32 (Some (W x1c x01 x34 xf4 x42 xf4 x10 x75)) O
O)))
O)
O)
(C x32 (Some (W x60 x14 x25 x49 xe3 x5c x30 xef)) (C x5f None (C x30 None (C x30 (Some (W x95 x84 x3e xe7 x2a x78 xa7 x46)) O
(C x31 (Some (W xe2 x82 x3e xe7 x2a x77 xa7 x46)) O
(C x32 (Some (W x2f x81 x3e xe7 x2a x76 xa7 x46)) O
O)))
O)
O)
O)))
O)
O)
(C x38 (Some (W xd0 x8c x8c xb4 x4f x94 x4b xed)) (C x5f None (C x30 None (C x30 (Some (W x05 x49 xd6 x1d x66 xe8 xad x5a)) (C x5f None (C x30 None (C x30 (Some (W xfe xc6 xf1 x22 x52 x81 xcd x9c)) O
(C x31 (Some (W xb1 xc8 xf1 x22 x52 x82 xcd x9c)) O
(C x32 (Some (W x98 xc3 xf1 x22 x52 x7f xcd x9c)) O
O)))
O)
O)
(C x31 (Some (W x52 x47 xd6 x1d x66 xe7 xad x5a)) (C x5f None (C x30 None (C x30 (Some (W xcf xdf x89 xd9 x46 xf7 x4b xc7)) O
(C x31 (Some (W x1c xde x89 xd9 x46 xf6 x4b xc7)) O
(C x32 (Some (W x35 xe3 x89 xd9 x46 xf9 x4b xc7)) O
O)))
O)
O)
(C x32 (Some (W x9f x45 xd6 x1d x66 xe6 xad x5a)) (C x5f None (C x30 None (C x30 (Some (W x20 xca x1f x78 x40 xed x44 x9b)) O
(C x31 (Some (W xd3 xcb x1f x78 x40 xee x44 x9b)) O
(C x32 (Some (W x86 xcd x1f x78 x40 xef x44 x9b)) O
O)))
O)
O)
O)))
O)
O)
(C x39 (Some (W x83 x8e x8c xb4 x4f x95 x4b xed)) (C x5f None (C x30 None (C x30 (Some (W x54 xcc x53 x68 x71 xf2 x75 x31)) (C x5f None (C x30 None (C x30 (Some (W x19 x4c xce x1d x11 xe3 xf4 xe7)) O
(C x31 (Some (W x66 x4a xce x1d x11 xe2 xf4 xe7)) O
(C x32 (Some (W xb3 x48 xce x1d x11 xe1 xf4 xe7)) O
O)))
O)
O)
(C x31 (Some (W x07 xce x53 x68 x71 xf3 x75 x31)) (C x5f None (C x30 None (C x30 (Some (W x48 xa1 xa8 x68 x1c xed x29 xbf)) O
(C x31 (Some (W xfb xa2 xa8 x68 x1c xee x29 xbf)) O
(C x32 (Some (W xae xa4 xa8 x68 x1c xef x29 xbf)) O
O)))
O)
O)
(C x32 (Some (W xba xcf x53 x68 x71 xf4 x75 x31)) (C x5f None (C x30 None (C x30 (Some (W xb7 x61 x12 x04 x24 xb7 x8f x15)) O
(C x31 (Some (W x04 x60 x12 x04 x24 xb6 x8f x15)) O
(C x32 (Some (W x1d x65 x12 x04 x24 xb9 x8f x15)) O
O)))
O)
O)
O)))
O)
O)
O))))))))))
(C x38 None (C x30 (Some (W xdf x80 x89 xb4 x4f x16 x48 xed)) (C x5f None (C x30 None (C x30 (Some (W x60 x88 x62 xf9 x72 xba xe8 x4b)) (C x5f None (C x30 None (C x30 (Some (W x95 x00 x63 x45 x46 x85 xc7 xe8)) O
(C x31 (Some (W xe2 xfe x62 x45 x46 x84 xc7 xe8)) O
(C x32 (Some (W x2f xfd x62 x45 x46 x83 xc7 xe8)) O
O)))
O)
O)
(C x31 (Some (W x13 x8a x62 xf9 x72 xbb xe8 x4b)) (C x5f None (C x30 None (C x30 (Some (W xa4 x44 x6f x54 x50 xcf x7d x93)) O
(C x31 (Some (W x57 x46 x6f x54 x50 xd0 x7d x93)) O
(C x32 (Some (W x0a x48 x6f x54 x50 xd1 x7d x93)) O
O)))
O)
O)
(C x32 (Some (W xc6 x8b x62 xf9 x72 xbc xe8 x4b)) (C x5f None (C x30 None (C x30 (Some (W xf3 x23 xd9 xb5 x56 xb9 x84 xbf)) O
(C x31 (Some (W x40 x22 xd9 xb5 x56 xb8 x84 xbf)) O
(C x32 (Some (W x59 x27 xd9 xb5 x56 xbb x84 xbf)) O
O)))
O)
O)
O)))
O)
O)
(C x31 (Some (W x2c x7f x89 xb4 x4f x15 x48 xed)) (C x5f None (C x30 None (C x30 (Some (W xb1 xb7 xe2 xd0 x6d x10 xfa x48)) (C x5f None (C x30 None (C x30 (Some (W x3a xb2 x82 x29 x0f xe0 xf7 x2f)) O
(C x31 (Some (W xed xb3 x82 x29 x0f xe1 xf7 x2f)) O
(C x32 (Some (W xd4 xae x82 x29 x0f xde xf7 x2f)) O
O)))
O)
O)
(C x31 (Some (W xfe xb5 xe2 xd0 x6d x0f xfa x48)) (C x5f None (C x30 None (C x30 (Some (W x8b xf1 x19 xe0 x03 xd6 x75 x5a)) O
(C x31 (Some (W xd8 xef x19 xe0 x03 xd5 x75 x5a)) O
(C x32 (Some (W xf1 xf4 x19 xe0 x03 xd8 x75 x5a)) O
O)))
O)
O)
(C x32 (Some (W x4b xb4 xe2 xd0 x6d x0e xfa x48)) (C x5f None (C x30 None (C x30 (Some (W x7c x6e x9b x43 xfc x0b xca x02)) O
(C x31 (Some (W x2f x70 x9b x43 xfc x0c xca x02)) O
(C x32 (Some (W xe2 x71 x9b x43 xfc x0d xca x02)) O
O)))
O)
O)
O)))
O)
O)
(C x32 (Some (W x45 x84 x89 xb4 x4f x18 x48 xed)) (C x5f None (C x30 None (C x30 (Some (W x3e x85 x34 xa4 x84 x4e x71 x4d)) (C x5f None (C x30 None (C x30 (Some (W xcb x36 x20 xaa xff xd5 x2c x64)) O
(C x31 (Some (W x18 x35 x20 xaa xff xd4 x2c x64)) O
(C x32 (Some (W x31 x3a x20 xaa xff xd7 x2c x64)) O
O)))
O)
O)
(C x31 (Some (W xf1 x86 x34 xa4 x84 x4f x71 x4d)) (C x5f None (C x30 None (C x30 (Some (W x7a x4c x8a x0b x06 xe0 x33 x90)) O
(C x31 (Some (W x2d x4e x8a x0b x06 xe1 x33 x90)) O
(C x32 (Some (W x14 x49 x8a x0b x06 xde x33 x90)) O
O)))
O)
O)
(C x32 (Some (W xd8 x81 x34 xa4 x84 x4c x71 x4d)) (C x5f None (C x30 None (C x30 (Some (W x6d x29 x39 xc4 xec x21 xff x36)) O
(C x31 (Some (W xba x27 x39 xc4 xec x20 xff x36)) O
(C x32 (Some (W x07 x26 x39 xc4 xec x1f xff x36)) O
O)))
O)
O)
O)))
O)
O)
(C x33 (Some (W x92 x82 x89 xb4 x4f x17 x48 xed)) (C x5f None (C x30 None (C x30 (Some (W x0f x49 xcb x42 x7e xc4 x6a x21)) (C x5f None (C x30 None (C x30 (Some (W x50 x12 x2d xb7 x30 x79 xa6 x19)) O
(C x31 (Some (W x03 x14 x2d xb7 x30 x7a xa6 x19)) O
(C x32 (Some (W xb6 x15 x2d xb7 x30 x7b xa6 x19)) O
O)))
O)
O)
(C x31 (Some (W x5c x47 xcb x42 x7e xc3 x6a x21)) (C x5f None (C x30 None (C x30 (Some (W x61 x80 x20 x6e x25 x0f x91 x44)) O
(C x31 (Some (W xae x7e x20 x6e x25 x0e x91 x44)) O
(C x32 (Some (W xfb x7c x20 x6e x25 x0d x91 x44)) O
O)))
O)
O)
(C x32 (Some (W x75 x4c xcb x42 x7e xc6 x6a x21)) (C x5f None (C x30 None (C x30 (Some (W x6e xa3 x71 xb5 x3e xcd xc5 x9d)) O
(C x31 (Some (W x21 xa5 x71 xb5 x3e xce xc5 x9d)) O
(C x32 (Some (W x08 xa0 x71 xb5 x3e xcb xc5 x9d)) O
O)))
O)
O)
O)))
O)
O)
(C x34 (Some (W x13 x7a x89 xb4 x4f x12 x48 xed)) (C x5f None (C x30 None (C x30 (Some (W xa4 x94 x91 x89 x54 x52 xc5 xef)) (C x5f None (C x30 None (C x30 (Some (W xe9 x76 x17 xb1 xa7 x30 xd7 xb1)) O
(C x31 (Some (W x36 x75 x17 xb1 xa7 x2f xd7 xb1)) O
(C x32 (Some (W x83 x73 x17 xb1 xa7 x2e xd7 xb1)) O
O)))
O)
O)
(C x31 (Some (W x57 x96 x91 x89 x54 x53 xc5 xef)) (C x5f None (C x30 None (C x30 (Some (W x58 x08 x81 xd8 xac xfa x7e xb3)) O
(C x31 (Some (W x0b x0a x81 xd8 xac xfb x7e xb3)) O
(C x32 (Some (W xbe x0b x81 xd8 xac xfc x7e xb3)) O
O)))
O)
O)
(C x32 (Some (W x0a x98 x91 x89 x54 x54 xc5 xef)) (C x5f None (C x30 None (C x30 (Some (W x07 xc9 xe9 x21 xb8 x04 x01 x89)) O
(C x31 (Some (W x54 xc7 xe9 x21 xb8 x03 x01 x89)) O
(C x32 (Some (W x6d xcc xe9 x21 xb8 x06 x01 x89)) O
O)))
O)
O)
O)))
O)
O)
(C x35 (Some (W x60 x78 x89 xb4 x4f x11 x48 xed)) (C x5f None (C x30 None (C x30 (Some (W x95 x50 x85 x7a x4a x08 x0f x45)) (C x5f None (C x30 None (C x30 (Some (W xce x1c xf1 x2a xdf x30 xeb x62)) O
(C x31 (Some (W x81 x1e xf1 x2a xdf x31 xeb x62)) O
(C x32 (Some (W x68 x19 xf1 x2a xdf x2e xeb x62)) O
O)))
O)
O)
(C x31 (Some (W xe2 x4e x85 x7a x4a x07 x0f x45)) (C x5f None (C x30 None (C x30 (Some (W xdf x06 x88 x1b xd5 xe6 xc7 xb7)) O
(C x31 (Some (W x2c x05 x88 x1b xd5 xe5 xc7 xb7)) O
(C x32 (Some (W x45 x0a x88 x1b xd5 xe8 xc7 xb7)) O
O)))
O)
O)
(C x32 (Some (W x2f x4d x85 x7a x4a x06 x0f x45)) (C x5f None (C x30 None (C x30 (Some (W x30 xf1 x1d xba xce xdc xc0 x8b)) O
(C x31 (Some (W xe3 xf2 x1d xba xce xdd xc0 x8b)) O
(C x32 (Some (W x96 xf4 x1d xba xce xde xc0 x8b)) O
O)))
O)
O)
O)))
O)
O)
(C x36 (Some (W x79 x7d x89 xb4 x4f x14 x48 xed)) (C x5f None (C x30 None (C x30 (Some (W x82 xd0 x7a x87 x62 x86 x78 x73)) (C x5f None (C x30 None (C x30 (Some (W xbf x0f x3a x46 x52 xd0 xbf x50)) O
(C x31 (Some (W x0c x0e x3a x46 x52 xcf xbf x50)) O
(C x32 (Some (W x25 x13 x3a x46 x52 xd2 xbf x50)) O
O)))
O)
O)
(C x31 (Some (W x35 xd2 x7a x87 x62 x87 x78 x73)) (C x5f None (C x30 None (C x30 (Some (W x2e xd0 xa3 xe1 x59 x9a x25 xa7)) O
(C x31 (Some (W xe1 xd1 xa3 xe1 x59 x9b x25 xa7)) O
(C x32 (Some (W xc8 xcc xa3 xe1 x59 x98 x25 xa7)) O
O)))
O)
O)
(C x32 (Some (W x1c xcd x7a x87 x62 x84 x78 x73)) (C x5f None (C x30 None (C x30 (Some (W x21 xad x52 x9a x40 xdc xf0 x4d)) O
(C x31 (Some (W x6e xab x52 x9a x40 xdb xf0 x4d)) O
(C x32 (Some (W xbb xa9 x52 x9a x40 xda xf0 x4d)) O
O)))
O)
O)
O)))
O)
O)
(C x37 (Some (W xc6 x7b x89 xb4 x4f x13 x48 xed)) (C x5f None (C x30 None (C x30 (Some (W xf3 x73 xfb xea x5a x3c xcc x1b)) (C x5f None (C x30 None (C x30 (Some (W xc4 x9e x79 x83 x94 x50 xc7 xa4)) O
(C x31 (Some (W x77 xa0 x79 x83 x94 x51 xc7 xa4)) O
(C x32 (Some (W x2a xa2 x79 x83 x94 x52 xc7 xa4)) O
O)))
O)
O)
(C x31 (Some (W x40 x72 xfb xea x5a x3b xcc x1b)) (C x5f None (C x30 None (C x30 (Some (W xb5 x1b xfb xe6 x8c x86 x1b x4d)) O
(C x31 (Some (W x02 x1a xfb xe6 x8c x85 x1b x4d)) O
(C x32 (Some (W x4f x18 xfb xe6 x8c x84 x1b x4d)) O
O)))
O)
O)
(C x32 (Some (W x59 x77 xfb xea x5a x3e xcc x1b)) (C x5f None (C x30 None (C x30 (Some (W x22 xc2 xef xf3 xa4 x84 x84 x7b)) O
(C x31 (Some (W xd5 xc3 xef xf3 xa4 x85 x84 x7b)) O
(C x32 (Some (W xbc xbe xef xf3 xa4 x82 x84 x7b)) O
O)))
O)
O)
O)))
O)
O)
(C x38 (Some (W x77 x8e x89 xb4 x4f x1e x48 xed)) (C x5f None (C x30 None (C x30 (Some (W x38 x28 x7b xf8 xb5 x8a x0f xd5)) (C x5f None (C x30 None (C x30 (Some (W x0d x18 xd6 x3d xda x24 x23 xd0)) O
(C x31 (Some (W x5a x16 xd6 x3d xda x23 x23 xd0)) O
(C x32 (Some (W xa7 x14 xd6 x3d xda x22 x23 xd0)) O
O)))
O)
O)
(C x31 (Some (W xeb x29 x7b xf8 xb5 x8b x0f xd5)) (C x5f None (C x30 None (C x30 (Some (W x5c xf7 x3f x9f xe0 x0e x2a xfc)) O
(C x31 (Some (W x0f xf9 x3f x9f xe0 x0f x2a xfc)) O
(C x32 (Some (W xc2 xfa x3f x9f xe0 x10 x2a xfc)) O
O)))
O)
O)
(C x32 (Some (W x9e x2b x7b xf8 xb5 x8c x0f xd5)) (C x5f None (C x30 None (C x30 (Some (W x6b x3b x4c xae xea x58 xe0 xa6)) O
(C x31 (Some (W xb8 x39 x4c xae xea x57 xe0 xa6)) O
(C x32 (Some (W xd1 x3e x4c xae xea x5a xe0 xa6)) O
O)))
O)
O)
O)))
O)
O)
(C x39 (Some (W xc4 x8c x89 xb4 x4f x1d x48 xed)) (C x5f None (C x30 None (C x30 (Some (W xc9 x67 x11 x5d xae xc0 xa9 x7e)) (C x5f None (C x30 None (C x30 (Some (W xd2 xed x92 x3f x22 xb7 xef x0d)) O
(C x31 (Some (W x85 xef x92 x3f x22 xb8 xef x0d)) O
(C x32 (Some (W x6c xea x92 x3f x22 xb5 xef x0d)) O
O)))
O)
O)
(C x31 (Some (W x16 x66 x11 x5d xae xbf xa9 x7e)) (C x5f None (C x30 None (C x30 (Some (W x03 xaa x85 xde x1b xad x55 xe2)) O
(C x31 (Some (W x50 xa8 x85 xde x1b xac x55 xe2)) O
(C x32 (Some (W x69 xad x85 xde x1b xaf x55 xe2)) O
O)))
O)
O)
(C x32 (Some (W x63 x64 x11 x5d xae xbe xa9 x7e)) (C x5f None (C x30 None (C x30 (Some (W xf4 x35 xab xcd x11 x83 x7f x35)) O
(C x31 (Some (W xa7 x37 xab xcd x11 x84 x7f x35)) O
(C x32 (Some (W x5a x39 xab xcd x11 x85 x7f x35)) O
O)))
O)
O)
O)))
O)
O)
O))))))))))
(C x39 None (C x30 (Some (W x56 x67 x86 xb4 x4f x90 x44 xed)) (C x5f None (C x30 None (C x30 (Some (W x43 xaa xab x0d x3e x1c xcf xdb)) (C x5f None (C x30 None (C x30 (Some (W x14 x80 xe4 x63 x92 x37 x00 x6d)) O
(C x31 (Some (W xc7 x81 xe4 x63 x92 x38 x00 x6d)) O
(C x32 (Some (W x7a x83 xe4 x63 x92 x39 x00 x6d)) O
O)))
O)
O)
(C x31 (Some (W x90 xa8 xab x0d x3e x1b xcf xdb)) (C x5f None (C x30 None (C x30 (Some (W xc5 xa7 x65 x01 x8c x2d xb3 x3f)) O
(C x31 (Some (W x12 xa6 x65 x01 x8c x2c xb3 x3f)) O
(C x32 (Some (W x5f xa4 x65 x01 x8c x2b xb3 x3f)) O
O)))
O)
O)
(C x32 (Some (W xa9 xad xab x0d x3e x1e xcf xdb)) (C x5f None (C x30 None (C x30 (Some (W x72 x8d xcb x49 xa5 xeb x2d x9a)) O
(C x31 (Some (W x25 x8f xcb x49 xa5 xec x2d x9a)) O
(C x32 (Some (W x0c x8a xcb x49 xa5 xe9 x2d x9a)) O
O)))
O)
O)
O)))
O)
O)
(C x31 (Some (W x09 x69 x86 xb4 x4f x91 x44 xed)) (C x5f None (C x30 None (C x30 (Some (W x12 x99 xb7 x56 x49 x26 xe4 xb0)) (C x5f None (C x30 None (C x30 (Some (W x8f x50 x67 x9f x17 x04 x9e x0a)) O
(C x31 (Some (W xdc x4e x67 x9f x17 x03 x9e x0a)) O
(C x32 (Some (W xf5 x53 x67 x9f x17 x06 x9e x0a)) O
O)))
O)
O)
(C x31 (Some (W xc5 x9a xb7 x56 x49 x27 xe4 xb0)) (C x5f None (C x30 None (C x30 (Some (W xbe x8c xd0 x00 x1e x8e xa4 x36)) O
(C x31 (Some (W x71 x8e xd0 x00 x1e x8f xa4 x36)) O
(C x32 (Some (W x58 x89 xd0 x00 x1e x8c xa4 x36)) O
O)))
O)
O)
(C x32 (Some (W xac x95 xb7 x56 x49 x24 xe4 xb0)) (C x5f None (C x30 None (C x30 (Some (W x31 xbf x7e x2d x07 x50 x2d x32)) O
(C x31 (Some (W x7e xbd x7e x2d x07 x4f x2d x32)) O
(C x32 (Some (W xcb xbb x7e x2d x07 x4e x2d x32)) O
O)))
O)
O)
O)))
O)
O)
(C x32 (Some (W xf0 x63 x86 xb4 x4f x8e x44 xed)) (C x5f None (C x30 None (C x30 (Some (W xe5 x18 xc3 x9b x2d x68 x5e x03)) (C x5f None (C x30 None (C x30 (Some (W x1e xc3 x3a xd6 x70 xfe x51 x83)) O
(C x31 (Some (W xd1 xc4 x3a xd6 x70 xff x51 x83)) O
(C x32 (Some (W xb8 xbf x3a xd6 x70 xfc x51 x83)) O
O)))
O)
O)
(C x31 (Some (W x32 x17 xc3 x9b x2d x67 x5e x03)) (C x5f None (C x30 None (C x30 (Some (W xef x18 x5f x73 x6a xf4 x97 x55)) O
(C x31 (Some (W x3c x17 x5f x73 x6a xf3 x97 x55)) O
(C x32 (Some (W x55 x1c x5f x73 x6a xf6 x97 x55)) O
O)))
O)
O)
(C x32 (Some (W x7f x15 xc3 x9b x2d x66 x5e x03)) (C x5f None (C x30 None (C x30 (Some (W x40 x58 xf6 x29 x5f xea x15 x80)) O
(C x31 (Some (W xf3 x59 xf6 x29 x5f xeb x15 x80)) O
(C x32 (Some (W xa6 x5b xf6 x29 x5f xec x15 x80)) O
O)))
O)
O)
O)))
O)
O)
(C x33 (Some (W xa3 x65 x86 xb4 x4f x8f x44 xed)) (C x5f None (C x30 None (C x30 (Some (W x34 xe1 xcf xe4 x38 xf2 x73 xd8)) (C x5f None (C x30 None (C x30 (Some (W x39 x0a x3f x2c x21 xcf xd8 x1d)) O
(C x31 (Some (W x86 x08 x3f x2c x21 xce xd8 x1d)) O
(C x32 (Some (W xd3 x06 x3f x2c x21 xcd xd8 x1d)) O
O)))
O)
O)
(C x31 (Some (W xe7 xe2 xcf xe4 x38 xf3 x73 xd8)) (C x5f None (C x30 None (C x30 (Some (W xe8 x1f xa9 x8d x27 xd9 xdf x49)) O
(C x31 (Some (W x9b x21 xa9 x8d x27 xda xdf x49)) O
(C x32 (Some (W x4e x23 xa9 x8d x27 xdb xdf x49)) O
O)))
O)
O)
(C x32 (Some (W x9a xe4 xcf xe4 x38 xf4 x73 xd8)) (C x5f None (C x30 None (C x30 (Some (W x57 x5c x11 x9d x31 xa3 x02 xf5)) O
(C x31 (Some (W xa4 x5a x11 x9d x31 xa2 x02 xf5)) O
(C x32 (Some (W xbd x5f x11 x9d x31 xa5 x02 xf5)) O
O)))
O)
O)
O)))
O)
O)
(C x34 (Some (W x22 x6e x86 xb4 x4f x94 x44 xed)) (C x5f None (C x30 None (C x30 (Some (W x1f xbc x08 x9e x62 xe4 x18 x0a)) (C x5f None (C x30 None (C x30 (Some (W xa0 xf1 xe7 x18 x7f x13 x05 x8a)) O
(C x31 (Some (W x53 xf3 xe7 x18 x7f x14 x05 x8a)) O
(C x32 (Some (W x06 xf5 xe7 x18 x7f x15 x05 x8a)) O
O)))
O)
O)
(C x31 (Some (W x6c xba x08 x9e x62 xe3 x18 x0a)) (C x5f None (C x30 None (C x30 (Some (W xf1 x75 x69 x08 x75 x69 x9b xdd)) O
(C x31 (Some (W x3e x74 x69 x08 x75 x68 x9b xdd)) O
(C x32 (Some (W x8b x72 x69 x08 x75 x67 x9b xdd)) O
O)))
O)
O)
(C x32 (Some (W x85 xbf x08 x9e x62 xe6 x18 x0a)) (C x5f None (C x30 None (C x30 (Some (W x7e xee xb9 xc3 x90 xa7 x8d x8b)) O
(C x31 (Some (W x31 xf0 xb9 xc3 x90 xa8 x8d x8b)) O
(C x32 (Some (W x18 xeb xb9 xc3 x90 xa5 x8d x8b)) O
O)))
O)
O)
O)))
O)
O)
(C x35 (Some (W xd5 x6f x86 xb4 x4f x95 x44 xed)) (C x5f None (C x30 None (C x30 (Some (W x0e x27 x73 xc5 x67 x2e xc1 x0b)) (C x5f None (C x30 None (C x30 (Some (W x1b xc0 xd6 xe2 xbe xa7 xf4 xd4)) O
(C x31 (Some (W x68 xbe xd6 xe2 xbe xa6 xf4 xd4)) O
(C x32 (Some (W x81 xc3 xd6 xe2 xbe xa9 xf4 xd4)) O
O)))
O)
O)
(C x31 (Some (W xc1 x28 x73 xc5 x67 x2f xc1 x0b)) (C x5f None (C x30 None (C x30 (Some (W x4a xfc x3f x44 xc5 x31 xfb x00)) O
(C x31 (Some (W xfd xfd x3f x44 xc5 x32 xfb x00)) O
(C x32 (Some (W xe4 xf8 x3f x44 xc5 x2f xfb x00)) O
O)))
O)
O)
(C x32 (Some (W xa8 x23 x73 xc5 x67 x2c xc1 x0b)) (C x5f None (C x30 None (C x30 (Some (W xbd x2e xee x70 xae xf3 x83 xfc)) O
(C x31 (Some (W x0a x2d xee x70 xae xf2 x83 xfc)) O
(C x32 (Some (W x57 x2b xee x70 xae xf1 x83 xfc)) O
O)))
O)
O)
O)))
O)
O)
(C x36 (Some (W xbc x6a x86 xb4 x4f x92 x44 xed)) (C x5f None (C x30 None (C x30 (Some (W x81 x59 x21 xf2 x50 xf0 x49 x07)) (C x5f None (C x30 None (C x30 (Some (W x0a x62 x38 x62 xce x31 xbf xa0)) O
(C x31 (Some (W xbd x63 x38 x62 xce x32 xbf xa0)) O
(C x32 (Some (W xa4 x5e x38 x62 xce x2f xbf xa0)) O
O)))
O)
O)
(C x31 (Some (W xce x57 x21 xf2 x50 xef x49 x07)) (C x5f None (C x30 None (C x30 (Some (W xdb x7a xd0 x18 xc3 xa7 x3d xcb)) O
(C x31 (Some (W x28 x79 xd0 x18 xc3 xa6 x3d xcb)) O
(C x32 (Some (W x41 x7e xd0 x18 xc3 xa9 x3d xcb)) O
O)))
O)
O)
(C x32 (Some (W x1b x56 x21 xf2 x50 xee x49 x07)) (C x5f None (C x30 None (C x30 (Some (W x8c x5d xc2 xb7 xbc x1d xa3 x9f)) O
(C x31 (Some (W x3f x5f xc2 xb7 xbc x1e xa3 x9f)) O
(C x32 (Some (W xf2 x60 xc2 xb7 xbc x1f xa3 x9f)) O
O)))
O)
O)
O)))
O)
O)
(C x37 (Some (W x6f x6c x86 xb4 x4f x93 x44 xed)) (C x5f None (C x30 None (C x30 (Some (W x70 xfb x9f x54 x57 xda x96 x34)) (C x5f None (C x30 None (C x30 (Some (W x65 x4b xac xa5 x94 x1f x73 x57)) O
(C x31 (Some (W xb2 x49 xac xa5 x94 x1e x73 x57)) O
(C x32 (Some (W xff x47 xac xa5 x94 x1d x73 x57)) O
O)))
O)
O)
(C x31 (Some (W x23 xfd x9f x54 x57 xdb x96 x34)) (C x5f None (C x30 None (C x30 (Some (W xb4 x13 xb9 xee x9f xa9 x88 x2c)) O
(C x31 (Some (W x67 x15 xb9 xee x9f xaa x88 x2c)) O
(C x32 (Some (W x1a x17 xb9 xee x9f xab x88 x2c)) O
O)))
O)
O)
(C x32 (Some (W xd6 xfe x9f x54 x57 xdc x96 x34)) (C x5f None (C x30 None (C x30 (Some (W xc3 xdc x94 x17 xa5 xd3 xe3 x2f)) O
(C x31 (Some (W x10 xdb x94 x17 xa5 xd2 xe3 x2f)) O
(C x32 (Some (W x29 xe0 x94 x17 xa5 xd5 xe3 x2f)) O
O)))
O)
O)
O)))
O)
O)
(C x38 (Some (W xee x74 x86 xb4 x4f x98 x44 xed)) (C x5f None (C x30 None (C x30 (Some (W xbb x0c xd9 x0d x81 xec x3b x66)) (C x5f None (C x30 None (C x30 (Some (W xec xbc x53 xcc xff x24 xd9 x16)) O
(C x31 (Some (W x9f xbe x53 xcc xff x25 xd9 x16)) O
(C x32 (Some (W x52 xc0 x53 xcc xff x26 xd9 x16)) O
O)))
O)
O)
(C x31 (Some (W x08 x0b xd9 x0d x81 xeb x3b x66)) (C x5f None (C x30 None (C x30 (Some (W xdd x32 xea x30 xf8 x7a x73 xc0)) O
(C x31 (Some (W x2a x31 xea x30 xf8 x79 x73 xc0)) O
(C x32 (Some (W x77 x2f xea x30 xf8 x78 x73 xc0)) O
O)))
O)
O)
(C x32 (Some (W x21 x10 xd9 x0d x81 xee x3b x66)) (C x5f None (C x30 None (C x30 (Some (W xea x55 x3b x78 x11 x39 xa8 x19)) O
(C x31 (Some (W x9d x57 x3b x78 x11 x3a xa8 x19)) O
(C x32 (Some (W x84 x52 x3b x78 x11 x37 xa8 x19)) O
O)))
O)
O)
O)))
O)
O)
(C x39 (Some (W xa1 x76 x86 xb4 x4f x99 x44 xed)) (C x5f None (C x30 None (C x30 (Some (W x6a xcd x41 x57 x8c xf6 xbd x3b)) (C x5f None (C x30 None (C x30 (Some (W xa7 x91 xec x91 xe6 x78 xbb xca)) O
(C x31 (Some (W xf4 x8f xec x91 xe6 x77 xbb xca)) O
(C x32 (Some (W x0d x95 xec x91 xe6 x7a xbb xca)) O
O)))
O)
O)
(C x31 (Some (W x1d xcf x41 x57 x8c xf7 xbd x3b)) (C x5f None (C x30 None (C x30 (Some (W x56 x9f xf8 xa0 xf0 xa2 x71 x75)) O
(C x31 (Some (W x09 xa1 xf8 xa0 xf0 xa3 x71 x75)) O
(C x32 (Some (W xf0 x9b xf8 xa0 xf0 xa0 x71 x75)) O
O)))
O)
O)
(C x32 (Some (W x04 xca x41 x57 x8c xf4 xbd x3b)) (C x5f None (C x30 None (C x30 (Some (W x09 x27 xa7 x93 xd8 xa4 x9b x46)) O
(C x31 (Some (W x56 x25 xa7 x93 xd8 xa3 x9b x46)) O
(C x32 (Some (W xa3 x23 xa7 x93 xd8 xa2 x9b x46)) O
O)))
O)
O)
O)))
O)
O)
O))))))))))
O))))))))))
O)
O)
O)
O))
(C x74 None (C x72 None (C x65 None (C x65 None (C x5f None (C x30 None (C x30 (Some (W x00 x55 x3e x2d xc2 xfd xa7 xb0)) (C x5f None (C x30 None (C x30 (Some (W x75 x67 xe2 x95 x2c x6b x6e xf7)) (C x5f None (C x30 None (C x30 (Some (W x6e xac xaa x7f x66 x1a x2c x6f)) O
(C x31 (Some (W x21 xae xaa x7f x66 x1b x2c x6f)) O
(C x32 (Some (W x08 xa9 xaa x7f x66 x18 x2c x6f)) O
O)))
O)
O)
(C x31 (Some (W xc2 x65 xe2 x95 x2c x6a x6e xf7)) (C x5f None (C x30 None (C x30 (Some (W xff xeb x40 xe4 x5e x50 xc6 x18)) O
(C x31 (Some (W x4c xea x40 xe4 x5e x4f xc6 x18)) O
(C x32 (Some (W x65 xef x40 xe4 x5e x52 xc6 x18)) O
O)))
O)
O)
(C x32 (Some (W x0f x64 xe2 x95 x2c x69 x6e xf7)) (C x5f None (C x30 None (C x30 (Some (W x50 x1b x66 x81 x58 xc6 x0c xeb)) O
(C x31 (Some (W x03 x1d x66 x81 x58 xc7 x0c xeb)) O
(C x32 (Some (W xb6 x1e x66 x81 x58 xc8 x0c xeb)) O
O)))
O)
O)
O)))
O)
O)
(C x31 (Some (W xb3 x56 x3e x2d xc2 xfe xa7 xb0)) (C x5f None (C x30 None (C x30 (Some (W x84 xea x60 x32 x34 x35 x1a x4f)) (C x5f None (C x30 None (C x30 (Some (W x89 xdc x30 x27 xf9 x15 x62 x1d)) O
(C x31 (Some (W xd6 xda x30 x27 xf9 x14 x62 x1d)) O
(C x32 (Some (W x23 xd9 x30 x27 xf9 x13 x62 x1d)) O
O)))
O)
O)
(C x31 (Some (W x37 xec x60 x32 x34 x36 x1a x4f)) (C x5f None (C x30 None (C x30 (Some (W xf8 x9c x9a xc2 x00 xe0 xc7 x73)) O
(C x31 (Some (W xab x9e x9a xc2 x00 xe1 xc7 x73)) O
(C x32 (Some (W x5e xa0 x9a xc2 x00 xe2 xc7 x73)) O
O)))
O)
O)
(C x32 (Some (W xea xed x60 x32 x34 x37 x1a x4f)) (C x5f None (C x30 None (C x30 (Some (W x27 x47 x76 x25 x07 xea x81 xa1)) O
(C x31 (Some (W x74 x45 x76 x25 x07 xe9 x81 xa1)) O
(C x32 (Some (W x8d x4a x76 x25 x07 xec x81 xa1)) O
O)))
O)
O)
O)))
O)
O)
(C x32 (Some (W x66 x58 x3e x2d xc2 xff xa7 xb0)) (C x5f None (C x30 None (C x30 (Some (W xd3 xc9 xca x93 x3a x1f x21 x7b)) (C x5f None (C x30 None (C x30 (Some (W x64 x04 x93 xf9 xe5 x35 x52 x10)) O
(C x31 (Some (W x17 x06 x93 xf9 xe5 x36 x52 x10)) O
(C x32 (Some (W xca x07 x93 xf9 xe5 x37 x52 x10)) O
O)))
O)
O)
(C x31 (Some (W x20 xc8 xca x93 x3a x1e x21 x7b)) (C x5f None (C x30 None (C x30 (Some (W x55 x6b x85 xd2 xe0 xeb x16 x0f)) O
(C x31 (Some (W xa2 x69 x85 xd2 xe0 xea x16 x0f)) O
(C x32 (Some (W xef x67 x85 xd2 xe0 xe9 x16 x0f)) O
O)))
O)
O)
(C x32 (Some (W x39 xcd xca x93 x3a x21 x21 x7b)) (C x5f None (C x30 None (C x30 (Some (W x42 xeb x7a xdf xf8 x69 x80 x3d)) O
(C x31 (Some (W xf5 xec x7a xdf xf8 x6a x80 x3d)) O
(C x32 (Some (W xdc xe7 x7a xdf xf8 x67 x80 x3d)) O
O)))
O)
O)
O)))
O)
O)
(C x33 (Some (W x19 x5a x3e x2d xc2 x00 xa8 xb0)) (C x5f None (C x30 None (C x30 (Some (W xe2 x0d xd7 xa2 x44 x69 xd7 x25)) (C x5f None (C x30 None (C x30 (Some (W xdf x9b xa4 x7e xae x35 xf8 x5d)) O
(C x31 (Some (W x2c x9a xa4 x7e xae x34 xf8 x5d)) O
(C x32 (Some (W x45 x9f xa4 x7e xae x37 xf8 x5d)) O
O)))
O)
O)
(C x31 (Some (W x95 x0f xd7 xa2 x44 x6a xd7 x25)) (C x5f None (C x30 None (C x30 (Some (W xce xb1 x0d x8e xb8 x7f x1b x09)) O
(C x31 (Some (W x81 xb3 x0d x8e xb8 x80 x1b x09)) O
(C x32 (Some (W x68 xae x0d x8e xb8 x7d x1b x09)) O
O)))
O)
O)
(C x32 (Some (W x7c x0a xd7 xa2 x44 x67 xd7 x25)) (C x5f None (C x30 None (C x30 (Some (W x41 x39 xbd xd2 x9c x41 x29 x5b)) O
(C x31 (Some (W x8e x37 xbd xd2 x9c x40 x29 x5b)) O
(C x32 (Some (W xdb x35 xbd xd2 x9c x3f x29 x5b)) O
O)))
O)
O)
O)))
O)
O)
(C x34 (Some (W xcc x5b x3e x2d xc2 x01 xa8 xb0)) (C x5f None (C x30 None (C x30 (Some (W x11 xb8 xb2 x05 x4b x73 x91 x53)) (C x5f None (C x30 None (C x30 (Some (W x5a x69 x2b xa8 xe9 x2b x04 x52)) O
(C x31 (Some (W x0d x6b x2b xa8 xe9 x2c x04 x52)) O
(C x32 (Some (W xf4 x65 x2b xa8 xe9 x29 x04 x52)) O
O)))
O)
O)
(C x31 (Some (W x5e xb6 xb2 x05 x4b x72 x91 x53)) (C x5f None (C x30 None (C x30 (Some (W x2b x14 x51 x5d xde x21 xcf x7a)) O
(C x31 (Some (W x78 x12 x51 x5d xde x20 xcf x7a)) O
(C x32 (Some (W x91 x17 x51 x5d xde x23 xcf x7a)) O
O)))
O)
O)
(C x32 (Some (W xab xb4 xb2 x05 x4b x71 x91 x53)) (C x5f None (C x30 None (C x30 (Some (W x1c x7b x43 x36 xd9 xd7 x93 x79)) O
(C x31 (Some (W xcf x7c x43 x36 xd9 xd8 x93 x79)) O
(C x32 (Some (W x82 x7e x43 x36 xd9 xd9 x93 x79)) O
O)))
O)
O)
O)))
O)
O)
(C x35 (Some (W x7f x5d x3e x2d xc2 x02 xa8 xb0)) (C x5f None (C x30 None (C x30 (Some (W x40 x70 xbf xa0 x52 x1d x8a xa9)) (C x5f None (C x30 None (C x30 (Some (W xb5 xc5 xe9 xf8 x2d x51 x8b xff)) O
(C x31 (Some (W x02 xc4 xe9 xf8 x2d x50 x8b xff)) O
(C x32 (Some (W x4f xc2 xe9 xf8 x2d x4f x8b xff)) O
O)))
O)
O)
(C x31 (Some (W xf3 x71 xbf xa0 x52 x1e x8a xa9)) (C x5f None (C x30 None (C x30 (Some (W xc4 x48 x68 x95 x35 x1b x37 x57)) O
(C x31 (Some (W x77 x4a x68 x95 x35 x1c x37 x57)) O
(C x32 (Some (W x2a x4c x68 x95 x35 x1d x37 x57)) O
O)))
O)
O)
(C x32 (Some (W xa6 x73 xbf xa0 x52 x1f x8a xa9)) (C x5f None (C x30 None (C x30 (Some (W x13 xd3 xd0 xde x40 x05 xb9 x2c)) O
(C x31 (Some (W x60 xd1 xd0 xde x40 x04 xb9 x2c)) O
(C x32 (Some (W x79 xd6 xd0 xde x40 x07 xb9 x2c)) O
O)))
O)
O)
O)))
O)
O)
(C x36 (Some (W x32 x5f x3e x2d xc2 x03 xa8 xb0)) (C x5f None (C x30 None (C x30 (Some (W xef x30 x28 xea x5d x27 x0c x7f)) (C x5f None (C x30 None (C x30 (Some (W xf0 x3c x25 xf8 x15 x45 x5f xdd)) O
(C x31 (Some (W xa3 x3e x25 xf8 x15 x46 x5f xdd)) O
(C x32 (Some (W x56 x40 x25 xf8 x15 x47 x5f xdd)) O
O)))
O)
O)
(C x31 (Some (W x3c x2f x28 xea x5d x26 x0c x7f)) (C x5f None (C x30 None (C x30 (Some (W x01 x9b xa6 x95 x0f x5b x12 xb0)) O
(C x31 (Some (W x4e x99 xa6 x95 x0f x5a x12 xb0)) O
(C x32 (Some (W x9b x97 xa6 x95 x0f x59 x12 xb0)) O
O)))
O)
O)
(C x32 (Some (W x55 x34 x28 xea x5d x29 x0c x7f)) (C x5f None (C x30 None (C x30 (Some (W x8e x68 xf8 x68 x26 x99 x89 xb4)) O
(C x31 (Some (W x41 x6a xf8 x68 x26 x9a x89 xb4)) O
(C x32 (Some (W x28 x65 xf8 x68 x26 x97 x89 xb4)) O
O)))
O)
O)
O)))
O)
O)
(C x37 (Some (W xe5 x60 x3e x2d xc2 x04 xa8 xb0)) (C x5f None (C x30 None (C x30 (Some (W x1e xdb x03 x4d x64 x31 xc6 xac)) (C x5f None (C x30 None (C x30 (Some (W xeb x75 x3a x20 x51 x3b xb8 xcf)) O
(C x31 (Some (W x38 x74 x3a x20 x51 x3a xb8 xcf)) O
(C x32 (Some (W x51 x79 x3a x20 x51 x3d xb8 xcf)) O
O)))
O)
O)
(C x31 (Some (W xd1 xdc x03 x4d x64 x32 xc6 xac)) (C x5f None (C x30 None (C x30 (Some (W x1a x20 x16 x83 x57 x45 x72 xfd)) O
(C x31 (Some (W xcd x21 x16 x83 x57 x46 x72 xfd)) O
(C x32 (Some (W xb4 x1c x16 x83 x57 x43 x72 xfd)) O
O)))
O)
O)
(C x32 (Some (W xb8 xd7 x03 x4d x64 x2f xc6 xac)) (C x5f None (C x30 None (C x30 (Some (W x8d x52 xc4 xaf x40 x07 xfb xf8)) O
(C x31 (Some (W xda x50 xc4 xaf x40 x06 xfb xf8)) O
(C x32 (Some (W x27 x4f xc4 xaf x40 x05 xfb xf8)) O
O)))
O)
O)
O)))
O)
O)
(C x38 (Some (W x98 x62 x3e x2d xc2 x05 xa8 xb0)) (C x5f None (C x30 None (C x30 (Some (W x2d x1f x10 x5c x6e x7b x7c x57)) (C x5f None (C x30 None (C x30 (Some (W xe6 x33 x4b xa5 x19 xbb x5d x1d)) O
(C x31 (Some (W x99 x35 x4b xa5 x19 xbc x5d x1d)) O
(C x32 (Some (W x80 x30 x4b xa5 x19 xb9 x5d x1d)) O
O)))
O)
O)
(C x31 (Some (W x7a x1d x10 x5c x6e x7a x7c x57)) (C x5f None (C x30 None (C x30 (Some (W x77 x7b x3f x5c x0e xd1 x48 x48)) O
(C x31 (Some (W xc4 x79 x3f x5c x0e xd0 x48 x48)) O
(C x32 (Some (W xdd x7e x3f x5c x0e xd3 x48 x48)) O
O)))
O)
O)
(C x32 (Some (W xc7 x1b x10 x5c x6e x79 x7c x57)) (C x5f None (C x30 None (C x30 (Some (W x08 xbb xd5 xc0 x06 x07 xe3 xf1)) O
(C x31 (Some (W xbb xbc xd5 xc0 x06 x08 xe3 xf1)) O
(C x32 (Some (W x6e xbe xd5 xc0 x06 x09 xe3 xf1)) O
O)))
O)
O)
O)))
O)
O)
(C x39 (Some (W x4b x64 x3e x2d xc2 x06 xa8 xb0)) (C x5f None (C x30 None (C x30 (Some (W x7c xfe x79 xbd x74 x65 x83 x83)) (C x5f None (C x30 None (C x30 (Some (W x41 x35 xae x77 x06 x5b x4e x10)) O
(C x31 (Some (W x8e x33 xae x77 x06 x5a x4e x10)) O
(C x32 (Some (W xdb x31 xae x77 x06 x59 x4e x10)) O
O)))
O)
O)
(C x31 (Some (W x2f x00 x7a xbd x74 x66 x83 x83)) (C x5f None (C x30 None (C x30 (Some (W x30 x82 x2b xc2 x11 x45 x16 xe7)) O
(C x31 (Some (W xe3 x83 x2b xc2 x11 x46 x16 xe7)) O
(C x32 (Some (W x96 x85 x2b xc2 x11 x47 x16 xe7)) O
O)))
O)
O)
(C x32 (Some (W xe2 x01 x7a xbd x74 x67 x83 x83)) (C x5f None (C x30 None (C x30 (Some (W xdf x97 x95 x23 x18 x4f x1d x13)) O
(C x31 (Some (W x2c x96 x95 x23 x18 x4e x1d x13)) O
(C x32 (Some (W x45 x9b x95 x23 x18 x51 x1d x13)) O
O)))
O)
O)
O)))
O)
O)
O))))))))))
(C x31 None (C x30 (Some (W x89 x6e x41 x2d xc2 x83 xab xb0)) (C x5f None (C x30 None (C x30 (Some (W x92 x45 x99 x81 x61 x09 x88 x67)) (C x5f None (C x30 None (C x30 (Some (W x0f x8a xcc xd4 x1c x68 x44 x3f)) O
(C x31 (Some (W x5c x88 xcc xd4 x1c x67 x44 x3f)) O
(C x32 (Some (W x75 x8d xcc xd4 x1c x6a x44 x3f)) O
O)))
O)
O)
(C x31 (Some (W x45 x47 x99 x81 x61 x0a x88 x67)) (C x5f None (C x30 None (C x30 (Some (W x3e xc6 x35 x36 x23 xf2 x4a x6b)) O
(C x31 (Some (W xf1 xc7 x35 x36 x23 xf3 x4a x6b)) O
(C x32 (Some (W xd8 xc2 x35 x36 x23 xf0 x4a x6b)) O
O)))
O)
O)
(C x32 (Some (W x2c x42 x99 x81 x61 x07 x88 x67)) (C x5f None (C x30 None (C x30 (Some (W xb1 xf8 xe3 x62 x0c xb4 xd3 x66)) O
(C x31 (Some (W xfe xf6 xe3 x62 x0c xb3 xd3 x66)) O
(C x32 (Some (W x4b xf5 xe3 x62 x0c xb2 xd3 x66)) O
O)))
O)
O)
O)))
O)
O)
(C x31 (Some (W xd6 x6c x41 x2d xc2 x82 xab xb0)) (C x5f None (C x30 None (C x30 (Some (W xc3 x56 x8d x38 x56 xff x72 x92)) (C x5f None (C x30 None (C x30 (Some (W x94 xb9 x49 x99 x97 x9b xa6 xa1)) O
(C x31 (Some (W x47 xbb x49 x99 x97 x9c xa6 xa1)) O
(C x32 (Some (W xfa xbc x49 x99 x97 x9d xa6 xa1)) O
O)))
O)
O)
(C x31 (Some (W x10 x55 x8d x38 x56 xfe x72 x92)) (C x5f None (C x30 None (C x30 (Some (W x45 xe1 xca x36 x91 x91 x59 x74)) O
(C x31 (Some (W x92 xdf xca x36 x91 x90 x59 x74)) O
(C x32 (Some (W xdf xdd xca x36 x91 x8f x59 x74)) O
O)))
O)
O)
(C x32 (Some (W x29 x5a x8d x38 x56 x01 x73 x92)) (C x5f None (C x30 None (C x30 (Some (W xf2 xc6 x30 x7f xaa x4f xd4 xce)) O
(C x31 (Some (W xa5 xc8 x30 x7f xaa x50 xd4 xce)) O
(C x32 (Some (W x8c xc3 x30 x7f xaa x4d xd4 xce)) O
O)))
O)
O)
O)))
O)
O)
(C x32 (Some (W x23 x6b x41 x2d xc2 x81 xab xb0)) (C x5f None (C x30 None (C x30 (Some (W xb4 x8d xb1 x0f x51 xd5 x17 x8f)) (C x5f None (C x30 None (C x30 (Some (W xb9 x43 xa4 x61 x26 x33 x7f x52)) O
(C x31 (Some (W x06 x42 xa4 x61 x26 x32 x7f x52)) O
(C x32 (Some (W x53 x40 xa4 x61 x26 x31 x7f x52)) O
O)))
O)
O)
(C x31 (Some (W x67 x8f xb1 x0f x51 xd6 x17 x8f)) (C x5f None (C x30 None (C x30 (Some (W x68 x59 x0e xc3 x2c x3d x86 x7e)) O
(C x31 (Some (W x1b x5b x0e xc3 x2c x3e x86 x7e)) O
(C x32 (Some (W xce x5c x0e xc3 x2c x3f x86 x7e)) O
O)))
O)
O)
(C x32 (Some (W x1a x91 xb1 x0f x51 xd7 x17 x8f)) (C x5f None (C x30 None (C x30 (Some (W xd7 x95 x76 xd2 x36 x07 xa9 x29)) O
(C x31 (Some (W x24 x94 x76 xd2 x36 x06 xa9 x29)) O
(C x32 (Some (W x3d x99 x76 xd2 x36 x09 xa9 x29)) O
O)))
O)
O)
O)))
O)
O)
(C x33 (Some (W x70 x69 x41 x2d xc2 x80 xab xb0)) (C x5f None (C x30 None (C x30 (Some (W x65 xc5 xa4 xc6 x45 x4b x02 xba)) (C x5f None (C x30 None (C x30 (Some (W x9e xfc x9f x0b x76 x62 xf8 xb7)) O
(C x31 (Some (W x51 xfe x9f x0b x76 x63 xf8 xb7)) O
(C x32 (Some (W x38 xf9 x9f x0b x76 x60 xf8 xb7)) O
O)))
O)
O)
(C x31 (Some (W xb2 xc3 xa4 xc6 x45 x4a x02 xba)) (C x5f None (C x30 None (C x30 (Some (W x6f x52 xc4 xa8 x6f x58 x3e x8a)) O
(C x31 (Some (W xbc x50 xc4 xa8 x6f x57 x3e x8a)) O
(C x32 (Some (W xd5 x55 xc4 xa8 x6f x5a x3e x8a)) O
O)))
O)
O)
(C x32 (Some (W xff xc1 xa4 xc6 x45 x49 x02 xba)) (C x5f None (C x30 None (C x30 (Some (W xc0 x91 x5b x5f x64 x4e xbc xb4)) O
(C x31 (Some (W x73 x93 x5b x5f x64 x4f xbc xb4)) O
(C x32 (Some (W x26 x95 x5b x5f x64 x50 xbc xb4)) O
O)))
O)
O)
O)))
O)
O)
(C x34 (Some (W x55 x75 x41 x2d xc2 x87 xab xb0)) (C x5f None (C x30 None (C x30 (Some (W x8e xd3 x54 xf0 x7f x11 x65 xc2)) (C x5f None (C x30 None (C x30 (Some (W x9b xf9 x3b x18 xc4 x0b x9b x09)) O
(C x31 (Some (W xe8 xf7 x3b x18 xc4 x0a x9b x09)) O
(C x32 (Some (W x01 xfd x3b x18 xc4 x0d x9b x09)) O
O)))
O)
O)
(C x31 (Some (W x41 xd5 x54 xf0 x7f x12 x65 xc2)) (C x5f None (C x30 None (C x30 (Some (W xca x35 xa5 x79 xca x95 xa1 x35)) O
(C x31 (Some (W x7d x37 xa5 x79 xca x96 xa1 x35)) O
(C x32 (Some (W x64 x32 xa5 x79 xca x93 xa1 x35)) O
O)))
O)
O)
(C x32 (Some (W x28 xd0 x54 xf0 x7f x0f x65 xc2)) (C x5f None (C x30 None (C x30 (Some (W x3d x68 x53 xa6 xb3 x57 x2a x31)) O
(C x31 (Some (W x8a x66 x53 xa6 xb3 x56 x2a x31)) O
(C x32 (Some (W xd7 x64 x53 xa6 xb3 x55 x2a x31)) O
O)))
O)
O)
O)))
O)
O)
(C x35 (Some (W xa2 x73 x41 x2d xc2 x86 xab xb0)) (C x5f None (C x30 None (C x30 (Some (W x9f x68 xea xc8 x7a xc7 xbc xc0)) (C x5f None (C x30 None (C x30 (Some (W x20 x2b x4d x4e x84 x77 xab xbe)) O
(C x31 (Some (W xd3 x2c x4d x4e x84 x78 xab xbe)) O
(C x32 (Some (W x86 x2e x4d x4e x84 x79 xab xbe)) O
O)))
O)
O)
(C x31 (Some (W xec x66 xea xc8 x7a xc6 xbc xc0)) (C x5f None (C x30 None (C x30 (Some (W x71 xaf xce x3d x7a xcd x41 x12)) O
(C x31 (Some (W xbe xad xce x3d x7a xcc x41 x12)) O
(C x32 (Some (W x0b xac xce x3d x7a xcb x41 x12)) O
O)))
O)
O)
(C x32 (Some (W x05 x6c xea xc8 x7a xc9 xbc xc0)) (C x5f None (C x30 None (C x30 (Some (W xfe x27 x1f xf9 x95 x0b x34 xc0)) O
(C x31 (Some (W xb1 x29 x1f xf9 x95 x0c x34 xc0)) O
(C x32 (Some (W x98 x24 x1f xf9 x95 x09 x34 xc0)) O
O)))
O)
O)
O)))
O)
O)
(C x36 (Some (W xef x71 x41 x2d xc2 x85 xab xb0)) (C x5f None (C x30 None (C x30 (Some (W xf0 xa7 x81 x7f x6f xbd x3a xeb)) (C x5f None (C x30 None (C x30 (Some (W xe5 x84 x11 xdb x99 x83 x19 x8c)) O
(C x31 (Some (W x32 x83 x11 xdb x99 x82 x19 x8c)) O
(C x32 (Some (W x7f x81 x11 xdb x99 x81 x19 x8c)) O
O)))
O)
O)
(C x31 (Some (W xa3 xa9 x81 x7f x6f xbe x3a xeb)) (C x5f None (C x30 None (C x30 (Some (W x34 x4d x1e x24 xa5 x0d x2f x61)) O
(C x31 (Some (W xe7 x4e x1e x24 xa5 x0e x2f x61)) O
(C x32 (Some (W x9a x50 x1e x24 xa5 x0f x2f x61)) O
O)))
O)
O)
(C x32 (Some (W x56 xab x81 x7f x6f xbf x3a xeb)) (C x5f None (C x30 None (C x30 (Some (W x43 x16 xfa x4c xaa x37 x8a x64)) O
(C x31 (Some (W x90 x14 xfa x4c xaa x36 x8a x64)) O
(C x32 (Some (W xa9 x19 xfa x4c xaa x39 x8a x64)) O
O)))
O)
O)
O)))
O)
O)
(C x37 (Some (W x3c x70 x41 x2d xc2 x84 xab xb0)) (C x5f None (C x30 None (C x30 (Some (W x01 x06 x03 x1d x69 xd3 xed xbd)) (C x5f None (C x30 None (C x30 (Some (W x8a x9b x9d x97 xd3 x95 x65 xd5)) O
(C x31 (Some (W x3d x9d x9d x97 xd3 x96 x65 xd5)) O
(C x32 (Some (W x24 x98 x9d x97 xd3 x93 x65 xd5)) O
O)))
O)
O)
(C x31 (Some (W x4e x04 x03 x1d x69 xd2 xed xbd)) (C x5f None (C x30 None (C x30 (Some (W x5b xb4 x35 x4e xc8 x0b xe4 xff)) O
(C x31 (Some (W xa8 xb2 x35 x4e xc8 x0a xe4 xff)) O
(C x32 (Some (W xc1 xb7 x35 x4e xc8 x0d xe4 xff)) O
O)))
O)
O)
(C x32 (Some (W x9b x02 x03 x1d x69 xd1 xed xbd)) (C x5f None (C x30 None (C x30 (Some (W x0c x97 x27 xed xc1 x81 x49 xd4)) O
(C x31 (Some (W xbf x98 x27 xed xc1 x82 x49 xd4)) O
(C x32 (Some (W x72 x9a x27 xed xc1 x83 x49 xd4)) O
O)))
O)
O)
O)))
O)
O)
(C x38 (Some (W x21 x7c x41 x2d xc2 x8b xab xb0)) (C x5f None (C x30 None (C x30 (Some (W xea x79 x23 x82 xa4 xd9 x61 xf2)) (C x5f None (C x30 None (C x30 (Some (W x27 xcb x51 xc7 xeb xdc x61 xff)) O
(C x31 (Some (W x74 xc9 x51 xc7 xeb xdb x61 xff)) O
(C x32 (Some (W x8d xce x51 xc7 xeb xde x61 xff)) O
O)))
O)
O)
(C x31 (Some (W x9d x7b x23 x82 xa4 xda x61 xf2)) (C x5f None (C x30 None (C x30 (Some (W xd6 xd8 x5d xd6 xf5 x06 x18 xaa)) O
(C x31 (Some (W x89 xda x5d xd6 xf5 x07 x18 xaa)) O
(C x32 (Some (W x70 xd5 x5d xd6 xf5 x04 x18 xaa)) O
O)))
O)
O)
(C x32 (Some (W x84 x76 x23 x82 xa4 xd7 x61 xf2)) (C x5f None (C x30 None (C x30 (Some (W x89 x60 x0c xc9 xdd x08 x42 x7b)) O
(C x31 (Some (W xd6 x5e x0c xc9 xdd x07 x42 x7b)) O
(C x32 (Some (W x23 x5d x0c xc9 xdd x06 x42 x7b)) O
O)))
O)
O)
O)))
O)
O)
(C x39 (Some (W x6e x7a x41 x2d xc2 x8a xab xb0)) (C x5f None (C x30 None (C x30 (Some (W x3b xb9 xba x38 x99 xcf xdf x1c)) (C x5f None (C x30 None (C x30 (Some (W x6c xf6 xb8 x01 x05 x89 x7f x4b)) O
(C x31 (Some (W x1f xf8 xb8 x01 x05 x8a x7f x4b)) O
(C x32 (Some (W xd2 xf9 xb8 x01 x05 x8b x7f x4b)) O
O)))
O)
O)
(C x31 (Some (W x88 xb7 xba x38 x99 xce xdf x1c)) (C x5f None (C x30 None (C x30 (Some (W x5d x6c x4f x66 xfd xde x19 xf5)) O
(C x31 (Some (W xaa x6a x4f x66 xfd xdd x19 xf5)) O
(C x32 (Some (W xf7 x68 x4f x66 xfd xdc x19 xf5)) O
O)))
O)
O)
(C x32 (Some (W xa1 xbc xba x38 x99 xd1 xdf x1c)) (C x5f None (C x30 None (C x30 (Some (W x6a x8f xa0 xad x16 x9d x4e x4e)) O
(C x31 (Some (W x1d x91 xa0 xad x16 x9e x4e x4e)) O
(C x32 (Some (W x04 x8c xa0 xad x16 x9b x4e x4e)) O
O)))
O)
O)
O)))
O)
O)
O))))))))))
(C x32 None (C x30 (Some (W x12 x88 x44 x2d xc2 x09 xaf xb0)) (C x5f None (C x30 None (C x30 (Some (W x8f xf5 xac x6d x96 xa7 x0e xd8)) (C x5f None (C x30 None (C x30 (Some (W xd0 x4b x92 xec x35 xdd x4c x4e)) O
(C x31 (Some (W x83 x4d x92 xec x35 xde x4c x4e)) O
(C x32 (Some (W x36 x4f x92 xec x35 xdf x4c x4e)) O
O)))
O)
O)
(C x31 (Some (W xdc xf3 xac x6d x96 xa6 x0e xd8)) (C x5f None (C x30 None (C x30 (Some (W xe1 xb9 x85 xa3 x2a x73 x37 x79)) O
(C x31 (Some (W x2e xb8 x85 xa3 x2a x72 x37 x79)) O
(C x32 (Some (W x7b xb6 x85 xa3 x2a x71 x37 x79)) O
O)))
O)
O)
(C x32 (Some (W xf5 xf8 xac x6d x96 xa9 x0e xd8)) (C x5f None (C x30 None (C x30 (Some (W xee xdc xd6 xea x43 x31 x6c xd2)) O
(C x31 (Some (W xa1 xde xd6 xea x43 x32 x6c xd2)) O
(C x32 (Some (W x88 xd9 xd6 xea x43 x2f x6c xd2)) O
O)))
O)
O)
O)))
O)
O)
(C x31 (Some (W xc5 x89 x44 x2d xc2 x0a xaf xb0)) (C x5f None (C x30 None (C x30 (Some (W xbe x31 x16 xcf x9c x31 x15 x04)) (C x5f None (C x30 None (C x30 (Some (W x4b x70 x85 xdf x04 x3a xd3 x98)) O
(C x31 (Some (W x98 x6e x85 xdf x04 x39 xd3 x98)) O
(C x32 (Some (W xb1 x73 x85 xdf x04 x3c xd3 x98)) O
O)))
O)
O)
(C x31 (Some (W x71 x33 x16 xcf x9c x32 x15 x04)) (C x5f None (C x30 None (C x30 (Some (W xfa x85 xef x40 x0b x44 xda xc4)) O
(C x31 (Some (W xad x87 xef x40 x0b x45 xda xc4)) O
(C x32 (Some (W x94 x82 xef x40 x0b x42 xda xc4)) O
O)))
O)
O)
(C x32 (Some (W x58 x2e x16 xcf x9c x2f x15 x04)) (C x5f None (C x30 None (C x30 (Some (W xed x62 x9e xf9 xf1 x85 xa5 x6b)) O
(C x31 (Some (W x3a x61 x9e xf9 xf1 x84 xa5 x6b)) O
(C x32 (Some (W x87 x5f x9e xf9 xf1 x83 xa5 x6b)) O
O)))
O)
O)
O)))
O)
O)
(C x32 (Some (W xac x84 x44 x2d xc2 x07 xaf xb0)) (C x5f None (C x30 None (C x30 (Some (W x31 x64 xc4 xfb x85 xf3 x9d xff)) (C x5f None (C x30 None (C x30 (Some (W xba xeb xe7 x5e x14 x44 x9e x64)) O
(C x31 (Some (W x6d xed xe7 x5e x14 x45 x9e x64)) O
(C x32 (Some (W x54 xe8 xe7 x5e x14 x42 x9e x64)) O
O)))
O)
O)
(C x31 (Some (W x7e x62 xc4 xfb x85 xf2 x9d xff)) (C x5f None (C x30 None (C x30 (Some (W x0b x2b x7f x15 x09 x3a x1c x8f)) O
(C x31 (Some (W x58 x29 x7f x15 x09 x39 x1c x8f)) O
(C x32 (Some (W x71 x2e x7f x15 x09 x3c x1c x8f)) O
O)))
O)
O)
(C x32 (Some (W xcb x60 xc4 xfb x85 xf1 x9d xff)) (C x5f None (C x30 None (C x30 (Some (W xfc xa7 x00 x79 x01 x70 x70 x37)) O
(C x31 (Some (W xaf xa9 x00 x79 x01 x71 x70 x37)) O
(C x32 (Some (W x62 xab x00 x79 x01 x72 x70 x37)) O
O)))
O)
O)
O)))
O)
O)
(C x33 (Some (W x5f x86 x44 x2d xc2 x08 xaf xb0)) (C x5f None (C x30 None (C x30 (Some (W xe0 x34 x44 x24 x8b x9d x8c x02)) (C x5f None (C x30 None (C x30 (Some (W x15 x3a xc8 x7a x4b xe9 x6d x1d)) O
(C x31 (Some (W x62 x38 xc8 x7a x4b xe8 x6d x1d)) O
(C x32 (Some (W xaf x36 xc8 x7a x4b xe7 x6d x1d)) O
O)))
O)
O)
(C x31 (Some (W x93 x36 x44 x24 x8b x9e x8c x02)) (C x5f None (C x30 None (C x30 (Some (W x24 x7e xd4 x89 x55 x33 x24 xc8)) O
(C x31 (Some (W xd7 x7f xd4 x89 x55 x34 x24 xc8)) O
(C x32 (Some (W x8a x81 xd4 x89 x55 x35 x24 xc8)) O
O)))
O)
O)
(C x32 (Some (W x46 x38 x44 x24 x8b x9f x8c x02)) (C x5f None (C x30 None (C x30 (Some (W x73 x5d x3e xeb x5b x1d x2b xf4)) O
(C x31 (Some (W xc0 x5b x3e xeb x5b x1c x2b xf4)) O
(C x32 (Some (W xd9 x60 x3e xeb x5b x1f x2b xf4)) O
O)))
O)
O)
O)))
O)
O)
(C x34 (Some (W x46 x81 x44 x2d xc2 x05 xaf xb0)) (C x5f None (C x30 None (C x30 (Some (W x73 x20 xdd x15 x73 x1f x70 xd2)) (C x5f None (C x30 None (C x30 (Some (W x44 xd8 xde xb8 x99 xb4 x6d xd9)) O
(C x31 (Some (W xf7 xd9 xde xb8 x99 xb5 x6d xd9)) O
(C x32 (Some (W xaa xdb xde xb8 x99 xb6 x6d xd9)) O
O)))
O)
O)
(C x31 (Some (W xc0 x1e xdd x15 x73 x1e x70 xd2)) (C x5f None (C x30 None (C x30 (Some (W x35 x55 x60 x1c x92 xea xc1 x81)) O
(C x31 (Some (W x82 x53 x60 x1c x92 xe9 xc1 x81)) O
(C x32 (Some (W xcf x51 x60 x1c x92 xe8 xc1 x81)) O
O)))
O)
O)
(C x32 (Some (W xd9 x23 xdd x15 x73 x21 x70 xd2)) (C x5f None (C x30 None (C x30 (Some (W xa2 xfb x54 x29 xaa xe8 x2a xb0)) O
(C x31 (Some (W x55 xfd x54 x29 xaa xe9 x2a xb0)) O
(C x32 (Some (W x3c xf8 x54 x29 xaa xe6 x2a xb0)) O
O)))
O)
O)
O)))
O)
O)
(C x35 (Some (W xf9 x82 x44 x2d xc2 x06 xaf xb0)) (C x5f None (C x30 None (C x30 (Some (W x02 x7d x5c xb2 x7a x69 x1c x2a)) (C x5f None (C x30 None (C x30 (Some (W x3f x49 x9f x7b x57 x34 x66 x85)) O
(C x31 (Some (W x8c x47 x9f x7b x57 x33 x66 x85)) O
(C x32 (Some (W xa5 x4c x9f x7b x57 x36 x66 x85)) O
O)))
O)
O)
(C x31 (Some (W xb5 x7e x5c xb2 x7a x6a x1c x2a)) (C x5f None (C x30 None (C x30 (Some (W xae x09 x09 x17 x5f xfe xcb xdb)) O
(C x31 (Some (W x61 x0b x09 x17 x5f xff xcb xdb)) O
(C x32 (Some (W x48 x06 x09 x17 x5f xfc xcb xdb)) O
O)))
O)
O)
(C x32 (Some (W x9c x79 x5c xb2 x7a x67 x1c x2a)) (C x5f None (C x30 None (C x30 (Some (W xa1 xe6 xb7 xcf x45 x40 x97 x82)) O
(C x31 (Some (W xee xe4 xb7 xcf x45 x3f x97 x82)) O
(C x32 (Some (W x3b xe3 xb7 xcf x45 x3e x97 x82)) O
O)))
O)
O)
O)))
O)
O)
(C x36 (Some (W xe0 x7d x44 x2d xc2 x03 xaf xb0)) (C x5f None (C x30 None (C x30 (Some (W x15 xfd x66 xa5 x62 xeb xb2 xfb)) (C x5f None (C x30 None (C x30 (Some (W x4e x56 x56 x60 xe4 x94 x91 x97)) O
(C x31 (Some (W x01 x58 x56 x60 xe4 x95 x91 x97)) O
(C x32 (Some (W xe8 x52 x56 x60 xe4 x92 x91 x97)) O
O)))
O)
O)
(C x31 (Some (W x62 xfb x66 xa5 x62 xea xb2 xfb)) (C x5f None (C x30 None (C x30 (Some (W x5f x40 xed x50 xda x4a x6e xec)) O
(C x31 (Some (W xac x3e xed x50 xda x49 x6e xec)) O
(C x32 (Some (W xc5 x43 xed x50 xda x4c x6e xec)) O
O)))
O)
O)
(C x32 (Some (W xaf xf9 x66 xa5 x62 xe9 xb2 xfb)) (C x5f None (C x30 None (C x30 (Some (W xb0 x2a x83 xef xd3 x40 x67 xc0)) O
(C x31 (Some (W x63 x2c x83 xef xd3 x41 x67 xc0)) O
(C x32 (Some (W x16 x2e x83 xef xd3 x42 x67 xc0)) O
O)))
O)
O)
O)))
O)
O)
(C x37 (Some (W x93 x7f x44 x2d xc2 x04 xaf xb0)) (C x5f None (C x30 None (C x30 (Some (W x24 x41 x73 xb4 x6c x35 x69 xa6)) (C x5f None (C x30 None (C x30 (Some (W x69 xb0 x7c xe6 xac x94 x7d xe6)) O
(C x31 (Some (W xb6 xae x7c xe6 xac x93 x7d xe6)) O
(C x32 (Some (W x03 xad x7c xe6 xac x92 x7d xe6)) O
O)))
O)
O)
(C x31 (Some (W xd7 x42 x73 xb4 x6c x36 x69 xa6)) (C x5f None (C x30 None (C x30 (Some (W xd8 x41 xe6 x0d xb2 x5e x25 xe8)) O
(C x31 (Some (W x8b x43 xe6 x0d xb2 x5f x25 xe8)) O
(C x32 (Some (W x3e x45 xe6 x0d xb2 x60 x25 xe8)) O
O)))
O)
O)
(C x32 (Some (W x8a x44 x73 xb4 x6c x37 x69 xa6)) (C x5f None (C x30 None (C x30 (Some (W x87 x02 x4f x57 xbd x68 xa7 xbd)) O
(C x31 (Some (W xd4 x00 x4f x57 xbd x67 xa7 xbd)) O
(C x32 (Some (W xed x05 x4f x57 xbd x6a xa7 xbd)) O
O)))
O)
O)
O)))
O)
O)
(C x38 (Some (W xaa x95 x44 x2d xc2 x11 xaf xb0)) (C x5f None (C x30 None (C x30 (Some (W xe7 x29 x37 x6e xd9 x77 xe8 x62)) (C x5f None (C x30 None (C x30 (Some (W xe8 x8c x17 xdf x04 x52 x6a x0e)) O
(C x31 (Some (W x9b x8e x17 xdf x04 x53 x6a x0e)) O
(C x32 (Some (W x4e x90 x17 xdf x04 x54 x6a x0e)) O
O)))
O)
O)
(C x31 (Some (W x34 x28 x37 x6e xd9 x76 xe8 x62)) (C x5f None (C x30 None (C x30 (Some (W x39 x77 xad x7d xfe x47 x63 xe2)) O
(C x31 (Some (W x86 x75 xad x7d xfe x46 x63 xe2)) O
(C x32 (Some (W xd3 x73 xad x7d xfe x45 x63 xe2)) O
O)))
O)
O)
(C x32 (Some (W x4d x2d x37 x6e xd9 x79 xe8 x62)) (C x5f None (C x30 None (C x30 (Some (W xc6 x44 xff x50 x15 x86 xda xe6)) O
(C x31 (Some (W x79 x46 xff x50 x15 x87 xda xe6)) O
(C x32 (Some (W x60 x41 xff x50 x15 x84 xda xe6)) O
O)))
O)
O)
O)))
O)
O)
(C x39 (Some (W x5d x97 x44 x2d xc2 x12 xaf xb0)) (C x5f None (C x30 None (C x30 (Some (W x96 x8c x44 x95 xde xa1 x23 x64)) (C x5f None (C x30 None (C x30 (Some (W x83 x61 x63 xe6 xd5 x9d x8e xf1)) O
(C x31 (Some (W xd0 x5f x63 xe6 xd5 x9c x8e xf1)) O
(C x32 (Some (W xe9 x64 x63 xe6 xd5 x9f x8e xf1)) O
O)))
O)
O)
(C x31 (Some (W x49 x8e x44 x95 xde xa2 x23 x64)) (C x5f None (C x30 None (C x30 (Some (W x52 xa5 x70 x47 xdc xa7 x28 x1d)) O
(C x31 (Some (W x05 xa7 x70 x47 xdc xa8 x28 x1d)) O
(C x32 (Some (W xec xa1 x70 x47 xdc xa5 x28 x1d)) O
O)))
O)
O)
(C x32 (Some (W x30 x89 x44 x95 xde x9f x23 x64)) (C x5f None (C x30 None (C x30 (Some (W x25 xd0 x7a x74 xc5 xe9 x1d x19)) O
(C x31 (Some (W x72 xce x7a x74 xc5 xe8 x1d x19)) O
(C x32 (Some (W xbf xcc x7a x74 xc5 xe7 x1d x19)) O
O)))
O)
O)
O)))
O)
O)
O))))))))))
(C x33 None (C x30 (Some (W x9b xa1 x47 x2d xc2 x8f xb2 xb0)) (C x5f None (C x30 None (C x30 (Some (W x0c xcc xbf x59 xcb xc5 x94 x48)) (C x5f None (C x30 None (C x30 (Some (W x51 x88 x47 xeb x23 xee x1e x62)) O
(C x31 (Some (W x9e x86 x47 xeb x23 xed x1e x62)) O
(C x32 (Some (W xeb x84 x47 xeb x23 xec x1e x62)) O
O)))
O)
O)
(C x31 (Some (W xbf xcd xbf x59 xcb xc6 x94 x48)) (C x5f None (C x30 None (C x30 (Some (W x80 x40 x54 x86 x2b x98 x17 xb8)) O
(C x31 (Some (W x33 x42 x54 x86 x2b x99 x17 xb8)) O
(C x32 (Some (W xe6 x43 x54 x86 x2b x9a x17 xb8)) O
O)))
O)
O)
(C x32 (Some (W x72 xcf xbf x59 xcb xc7 x94 x48)) (C x5f None (C x30 None (C x30 (Some (W x2f x56 xbe xe7 x31 xa2 x1e xe4)) O
(C x31 (Some (W x7c x54 xbe xe7 x31 xa1 x1e xe4)) O
(C x32 (Some (W x95 x59 xbe xe7 x31 xa4 x1e xe4)) O
O)))
O)
O)
O)))
O)
O)
(C x31 (Some (W xe8 x9f x47 x2d xc2 x8e xb2 xb0)) (C x5f None (C x30 None (C x30 (Some (W xfd x57 xe5 x48 xc1 x9b xbe x9b)) (C x5f None (C x30 None (C x30 (Some (W x76 x2e xdd xd9 xbf x52 x18 xd3)) O
(C x31 (Some (W x29 x30 xdd xd9 xbf x53 x18 xd3)) O
(C x32 (Some (W x10 x2b xdd xd9 xbf x50 x18 xd3)) O
O)))
O)
O)
(C x31 (Some (W x4a x56 xe5 x48 xc1 x9a xbe x9b)) (C x5f None (C x30 None (C x30 (Some (W x47 x08 x5e x3d xb8 x28 x6c x7b)) O
(C x31 (Some (W x94 x06 x5e x3d xb8 x27 x6c x7b)) O
(C x32 (Some (W xad x0b x5e x3d xb8 x2a x6c x7b)) O
O)))
O)
O)
(C x32 (Some (W x97 x54 xe5 x48 xc1 x99 xbe x9b)) (C x5f None (C x30 None (C x30 (Some (W x98 xf2 xf3 xdb xb1 x1e x65 x4f)) O
(C x31 (Some (W x4b xf4 xf3 xdb xb1 x1f x65 x4f)) O
(C x32 (Some (W xfe xf5 xf3 xdb xb1 x20 x65 x4f)) O
O)))
O)
O)
O)))
O)
O)
(C x32 (Some (W x01 xa5 x47 x2d xc2 x91 xb2 xb0)) (C x5f None (C x30 None (C x30 (Some (W x8a xd0 x35 x04 xdd xd9 xb0 x49)) (C x5f None (C x30 None (C x30 (Some (W x87 x86 x2a xf9 xa1 x5b x87 x1b)) O
(C x31 (Some (W xd4 x84 x2a xf9 xa1 x5a x87 x1b)) O
(C x32 (Some (W xed x89 x2a xf9 xa1 x5d x87 x1b)) O
O)))
O)
O)
(C x31 (Some (W x3d xd2 x35 x04 xdd xda xb0 x49)) (C x5f None (C x30 None (C x30 (Some (W xb6 xac xa9 x95 xa9 x85 x33 x73)) O
(C x31 (Some (W x69 xae xa9 x95 xa9 x86 x33 x73)) O
(C x32 (Some (W x50 xa9 xa9 x95 xa9 x83 x33 x73)) O
O)))
O)
O)
(C x32 (Some (W x24 xcd x35 x04 xdd xd7 xb0 x49)) (C x5f None (C x30 None (C x30 (Some (W x69 x34 x58 x88 x91 x87 x5d x44)) O
(C x31 (Some (W xb6 x32 x58 x88 x91 x86 x5d x44)) O
(C x32 (Some (W x03 x31 x58 x88 x91 x85 x5d x44)) O
O)))
O)
O)
O)))
O)
O)
(C x33 (Some (W x4e xa3 x47 x2d xc2 x90 xb2 xb0)) (C x5f None (C x30 None (C x30 (Some (W x5b xe9 xcd xba xd1 x4f x2f x74)) (C x5f None (C x30 None (C x30 (Some (W xcc xe3 xe2 x67 xe1 x0b x33 xbd)) O
(C x31 (Some (W x7f xe5 xe2 x67 xe1 x0c x33 xbd)) O
(C x32 (Some (W x32 xe7 xe2 x67 xe1 x0d x33 xbd)) O
O)))
O)
O)
(C x31 (Some (W xa8 xe7 xcd xba xd1 x4e x2f x74)) (C x5f None (C x30 None (C x30 (Some (W xbd x1a x07 x3f xdc xe1 xd7 xb9)) O
(C x31 (Some (W x0a x19 x07 x3f xdc xe0 xd7 xb9)) O
(C x32 (Some (W x57 x17 x07 x3f xdc xdf xd7 xb9)) O
O)))
O)
O)
(C x32 (Some (W xc1 xec xcd xba xd1 x51 x2f x74)) (C x5f None (C x30 None (C x30 (Some (W x4a xe8 x58 x12 xf3 x1f x4f xbe)) O
(C x31 (Some (W xfd xe9 x58 x12 xf3 x20 x4f xbe)) O
(C x32 (Some (W xe4 xe4 x58 x12 xf3 x1d x4f xbe)) O
O)))
O)
O)
O)))
O)
O)
(C x34 (Some (W x67 xa8 x47 x2d xc2 x93 xb2 xb0)) (C x5f None (C x30 None (C x30 (Some (W x68 x0c x1f x02 xeb x0d x64 xcd)) (C x5f None (C x30 None (C x30 (Some (W x7d xd1 xf1 x19 x4a xfb x45 x65)) O
(C x31 (Some (W xca xcf xf1 x19 x4a xfa x45 x65)) O
(C x32 (Some (W x17 xce xf1 x19 x4a xf9 x45 x65)) O
O)))
O)
O)
(C x31 (Some (W x1b x0e x1f x02 xeb x0e x64 xcd)) (C x5f None (C x30 None (C x30 (Some (W x8c x45 xcc x2a x54 x25 x1c x12)) O
(C x31 (Some (W x3f x47 xcc x2a x54 x26 x1c x12)) O
(C x32 (Some (W xf2 x48 xcc x2a x54 x27 x1c x12)) O
O)))
O)
O)
(C x32 (Some (W xce x0f x1f x02 xeb x0f x64 xcd)) (C x5f None (C x30 None (C x30 (Some (W xdb x62 xda x8b x5a xaf xb6 x3d)) O
(C x31 (Some (W x28 x61 xda x8b x5a xae xb6 x3d)) O
(C x32 (Some (W x41 x66 xda x8b x5a xb1 xb6 x3d)) O
O)))
O)
O)
O)))
O)
O)
(C x35 (Some (W xb4 xa6 x47 x2d xc2 x92 xb2 xb0)) (C x5f None (C x30 None (C x30 (Some (W xb9 xf6 xb4 xa0 xe4 x03 x5d xa1)) (C x5f None (C x30 None (C x30 (Some (W xc2 xa3 x91 x47 x51 x5a x7b x49)) O
(C x31 (Some (W x75 xa5 x91 x47 x51 x5b x7b x49)) O
(C x32 (Some (W x5c xa0 x91 x47 x51 x58 x7b x49)) O
O)))
O)
O)
(C x31 (Some (W x06 xf5 xb4 xa0 xe4 x02 x5d xa1)) (C x5f None (C x30 None (C x30 (Some (W x33 x47 x12 xab x49 x10 xcf xf1)) O
(C x31 (Some (W x80 x45 x12 xab x49 x0f xcf xf1)) O
(C x32 (Some (W x99 x4a x12 xab x49 x12 xcf xf1)) O
O)))
O)
O)
(C x32 (Some (W x53 xf3 xb4 xa0 xe4 x01 x5d xa1)) (C x5f None (C x30 None (C x30 (Some (W xe4 xbc xa9 x61 x3e x26 x4d x1c)) O
(C x31 (Some (W x97 xbe xa9 x61 x3e x27 x4d x1c)) O
(C x32 (Some (W x4a xc0 xa9 x61 x3e x28 x4d x1c)) O
O)))
O)
O)
O)))
O)
O)
(C x36 (Some (W xcd xab x47 x2d xc2 x95 xb2 xb0)) (C x5f None (C x30 None (C x30 (Some (W x46 xc4 x06 x74 xfb x41 xd4 xa5)) (C x5f None (C x30 None (C x30 (Some (W x73 xe1 x19 x8d x40 x10 x0b x52)) O
(C x31 (Some (W xc0 xdf x19 x8d x40 x0f x0b x52)) O
(C x32 (Some (W xd9 xe4 x19 x8d x40 x12 x0b x52)) O
O)))
O)
O)
(C x31 (Some (W xf9 xc5 x06 x74 xfb x42 xd4 xa5)) (C x5f None (C x30 None (C x30 (Some (W x02 x3e x99 x29 x48 x5a xb7 xa9)) O
(C x31 (Some (W xb5 x3f x99 x29 x48 x5b xb7 xa9)) O
(C x32 (Some (W x9c x3a x99 x29 x48 x58 xb7 xa9)) O
O)))
O)
O)
(C x32 (Some (W xe0 xc0 x06 x74 xfb x3f xd4 xa5)) (C x5f None (C x30 None (C x30 (Some (W x15 xbe xa3 x1c x30 xdc x4d x7b)) O
(C x31 (Some (W x62 xbc xa3 x1c x30 xdb x4d x7b)) O
(C x32 (Some (W xaf xba xa3 x1c x30 xda x4d x7b)) O
O)))
O)
O)
O)))
O)
O)
(C x37 (Some (W x1a xaa x47 x2d xc2 x94 xb2 xb0)) (C x5f None (C x30 None (C x30 (Some (W xd7 x48 x87 x11 xf5 xd7 x86 x78)) (C x5f None (C x30 None (C x30 (Some (W xd8 x43 x3a x82 x4b xde x97 x20)) O
(C x31 (Some (W x8b x45 x3a x82 x4b xdf x97 x20)) O
(C x32 (Some (W x3e x47 x3a x82 x4b xe0 x97 x20)) O
O)))
O)
O)
(C x31 (Some (W x24 x47 x87 x11 xf5 xd6 x86 x78)) (C x5f None (C x30 None (C x30 (Some (W x69 xb2 xd0 x5a x46 x14 xf0 x1e)) O
(C x31 (Some (W xb6 xb0 xd0 x5a x46 x13 xf0 x1e)) O
(C x32 (Some (W x03 xaf xd0 x5a x46 x12 xf0 x1e)) O
O)))
O)
O)
(C x32 (Some (W x3d x4c x87 x11 xf5 xd9 x86 x78)) (C x5f None (C x30 None (C x30 (Some (W xb6 x2a x22 x68 x5e x12 xc6 x4d)) O
(C x31 (Some (W x69 x2c x22 x68 x5e x13 xc6 x4d)) O
(C x32 (Some (W x50 x27 x22 x68 x5e x10 xc6 x4d)) O
O)))
O)
O)
O)))
O)
O)
(C x38 (Some (W x03 x94 x47 x2d xc2 x87 xb2 xb0)) (C x5f None (C x30 None (C x30 (Some (W xd4 x78 x35 x93 x89 xd5 x19 xe8)) (C x5f None (C x30 None (C x30 (Some (W x99 x85 x33 x53 x16 x47 x9b x1c)) O
(C x31 (Some (W xe6 x83 x33 x53 x16 x46 x9b x1c)) O
(C x32 (Some (W x33 x82 x33 x53 x16 x45 x9b x1c)) O
O)))
O)
O)
(C x31 (Some (W x87 x7a x35 x93 x89 xd6 x19 xe8)) (C x5f None (C x30 None (C x30 (Some (W xc8 xda x0d x9e x21 x51 xd0 xf3)) O
(C x31 (Some (W x7b xdc x0d x9e x21 x52 xd0 xf3)) O
(C x32 (Some (W x2e xde x0d x9e x21 x53 xd0 xf3)) O
O)))
O)
O)
(C x32 (Some (W x3a x7c x35 x93 x89 xd7 x19 xe8)) (C x5f None (C x30 None (C x30 (Some (W x37 x9b x77 x39 x29 x1b x36 x4a)) O
(C x31 (Some (W x84 x99 x77 x39 x29 x1a x36 x4a)) O
(C x32 (Some (W x9d x9e x77 x39 x29 x1d x36 x4a)) O
O)))
O)
O)
O)))
O)
O)
(C x39 (Some (W x50 x92 x47 x2d xc2 x86 xb2 xb0)) (C x5f None (C x30 None (C x30 (Some (W x85 xf5 xb7 x48 x7e xcb x51 x11)) (C x5f None (C x30 None (C x30 (Some (W x7e x00 x57 x58 x57 xe5 x73 xd1)) O
(C x31 (Some (W x31 x02 x57 x58 x57 xe6 x73 xd1)) O
(C x32 (Some (W x18 xfd x56 x58 x57 xe3 x73 xd1)) O
O)))
O)
O)
(C x31 (Some (W xd2 xf3 xb7 x48 x7e xca x51 x11)) (C x5f None (C x30 None (C x30 (Some (W x4f x19 xef x0e x4c x5b xf2 xfb)) O
(C x31 (Some (W x9c x17 xef x0e x4c x5a xf2 xfb)) O
(C x32 (Some (W xb5 x1c xef x0e x4c x5d xf2 xfb)) O
O)))
O)
O)
(C x32 (Some (W x1f xf2 xb7 x48 x7e xc9 x51 x11)) (C x5f None (C x30 None (C x30 (Some (W xa0 x03 x85 xad x45 x51 xeb xcf)) O
(C x31 (Some (W x53 x05 x85 xad x45 x52 xeb xcf)) O
(C x32 (Some (W x06 x07 x85 xad x45 x53 xeb xcf)) O
O)))
O)
O)
O)))
O)
O)
O))))))))))
(C x34 None (C x30 (Some (W xa4 xe1 x49 x2d xc2 x95 xb5 xb0)) (C x5f None (C x30 None (C x30 (Some (W xe9 xe5 x98 x64 xd6 x9f xb7 xe5)) (C x5f None (C x30 None (C x30 (Some (W xb2 x4a xd0 x05 x93 x07 x6d x02)) O
(C x31 (Some (W x65 x4c xd0 x05 x93 x08 x6d x02)) O
(C x32 (Some (W x4c x47 xd0 x05 x93 x05 x6d x02)) O
O)))
O)
O)
(C x31 (Some (W x36 xe4 x98 x64 xd6 x9e xb7 xe5)) (C x5f None (C x30 None (C x30 (Some (W x63 x72 x51 xa3 x8c xfd x1f xd5)) O
(C x31 (Some (W xb0 x70 x51 xa3 x8c xfc x1f xd5)) O
(C x32 (Some (W xc9 x75 x51 xa3 x8c xff x1f xd5)) O
O)))
O)
O)
(C x32 (Some (W x83 xe2 x98 x64 xd6 x9d xb7 xe5)) (C x5f None (C x30 None (C x30 (Some (W x54 xe8 xe7 x07 x85 x53 xba x7e)) O
(C x31 (Some (W x07 xea xe7 x07 x85 x54 xba x7e)) O
(C x32 (Some (W xba xeb xe7 x07 x85 x55 xba x7e)) O
O)))
O)
O)
O)))
O)
O)
(C x31 (Some (W x57 xe3 x49 x2d xc2 x96 xb5 xb0)) (C x5f None (C x30 None (C x30 (Some (W x58 x77 x02 x8c xdb x69 x5f xe7)) (C x5f None (C x30 None (C x30 (Some (W xed x25 xe1 x7a xa6 xd7 xa7 x25)) O
(C x31 (Some (W x3a x24 xe1 x7a xa6 xd6 xa7 x25)) O
(C x32 (Some (W x87 x22 xe1 x7a xa6 xd5 xa7 x25)) O
O)))
O)
O)
(C x31 (Some (W x0b x79 x02 x8c xdb x6a x5f xe7)) (C x5f None (C x30 None (C x30 (Some (W x3c xb0 x49 xc4 xb1 xc1 x29 xfb)) O
(C x31 (Some (W xef xb1 x49 xc4 xb1 xc2 x29 xfb)) O
(C x32 (Some (W xa2 xb3 x49 xc4 xb1 xc3 x29 xfb)) O
O)))
O)
O)
(C x32 (Some (W xbe x7a x02 x8c xdb x6b x5f xe7)) (C x5f None (C x30 None (C x30 (Some (W x4b x33 xc8 x60 xb9 x8b xd5 x52)) O
(C x31 (Some (W x98 x31 xc8 x60 xb9 x8a xd5 x52)) O
(C x32 (Some (W xb1 x36 xc8 x60 xb9 x8d xd5 x52)) O
O)))
O)
O)
O)))
O)
O)
(C x32 (Some (W x0a xe5 x49 x2d xc2 x97 xb5 xb0)) (C x5f None (C x30 None (C x30 (Some (W x07 x38 x6b xd5 xe6 x73 xe1 xbc)) (C x5f None (C x30 None (C x30 (Some (W x48 x6f x78 x28 x92 x0b x05 x83)) O
(C x31 (Some (W xfb x70 x78 x28 x92 x0c x05 x83)) O
(C x32 (Some (W xae x72 x78 x28 x92 x0d x05 x83)) O
O)))
O)
O)
(C x31 (Some (W x54 x36 x6b xd5 xe6 x72 xe1 xbc)) (C x5f None (C x30 None (C x30 (Some (W x19 x1a x9e xdd x86 x01 xd0 xab)) O
(C x31 (Some (W x66 x18 x9e xdd x86 x00 xd0 xab)) O
(C x32 (Some (W xb3 x16 x9e xdd x86 xff xcf xab)) O
O)))
O)
O)
(C x32 (Some (W x6d x3b x6b xd5 xe6 x75 xe1 xbc)) (C x5f None (C x30 None (C x30 (Some (W x26 x3d xef x24 xa0 xbf x04 x05)) O
(C x31 (Some (W xd9 x3e xef x24 xa0 xc0 x04 x05)) O
(C x32 (Some (W xc0 x39 xef x24 xa0 xbd x04 x05)) O
O)))
O)
O)
O)))
O)
O)
(C x33 (Some (W xbd xe6 x49 x2d xc2 x98 xb5 xb0)) (C x5f None (C x30 None (C x30 (Some (W x36 x5e xea x71 xee x9d x8d x14)) (C x5f None (C x30 None (C x30 (Some (W x63 xf0 xc9 x75 x41 x8a xb2 xaf)) O
(C x31 (Some (W xb0 xee xc9 x75 x41 x89 xb2 xaf)) O
(C x32 (Some (W xc9 xf3 xc9 x75 x41 x8c xb2 xaf)) O
O)))
O)
O)
(C x31 (Some (W xe9 x5f xea x71 xee x9e x8d x14)) (C x5f None (C x30 None (C x30 (Some (W xb2 xc8 x48 xd8 x47 x94 xff xdc)) O
(C x31 (Some (W x65 xca x48 xd8 x47 x95 xff xdc)) O
(C x32 (Some (W x4c xc5 x48 xd8 x47 x92 xff xdc)) O
O)))
O)
O)
(C x32 (Some (W xd0 x5a xea x71 xee x9b x8d x14)) (C x5f None (C x30 None (C x30 (Some (W x05 xe3 xe2 x8f x2e xd6 x84 x82)) O
(C x31 (Some (W x52 xe1 xe2 x8f x2e xd5 x84 x82)) O
(C x32 (Some (W x9f xdf xe2 x8f x2e xd4 x84 x82)) O
O)))
O)
O)
O)))
O)
O)
(C x34 (Some (W xd8 xda x49 x2d xc2 x91 xb5 xb0)) (C x5f None (C x30 None (C x30 (Some (W x6d x9c xc9 xd2 xb1 x77 xba xb5)) (C x5f None (C x30 None (C x30 (Some (W x26 x08 x38 x8e x48 x73 x7b xb9)) O
(C x31 (Some (W xd9 x09 x38 x8e x48 x74 x7b xb9)) O
(C x32 (Some (W xc0 x04 x38 x8e x48 x71 x7b xb9)) O
O)))
O)
O)
(C x31 (Some (W xba x9a xc9 xd2 xb1 x76 xba xb5)) (C x5f None (C x30 None (C x30 (Some (W xb7 xfa x2a x2d x42 x89 xe1 x8d)) O
(C x31 (Some (W x04 xf9 x2a x2d x42 x88 xe1 x8d)) O
(C x32 (Some (W x1d xfe x2a x2d x42 x8b xe1 x8d)) O
O)))
O)
O)
(C x32 (Some (W x07 x99 xc9 xd2 xb1 x75 xba xb5)) (C x5f None (C x30 None (C x30 (Some (W x48 x3a xc1 x91 x3a xbf x7b x37)) O
(C x31 (Some (W xfb x3b xc1 x91 x3a xc0 x7b x37)) O
(C x32 (Some (W xae x3d xc1 x91 x3a xc1 x7b x37)) O
O)))
O)
O)
O)))
O)
O)
(C x35 (Some (W x8b xdc x49 x2d xc2 x92 xb5 xb0)) (C x5f None (C x30 None (C x30 (Some (W xbc x26 x32 x1c xbd x61 x3c x8b)) (C x5f None (C x30 None (C x30 (Some (W x81 xed x5f x3a x28 x46 x4b xec)) O
(C x31 (Some (W xce xeb x5f x3a x28 x45 x4b xec)) O
(C x32 (Some (W x1b xea x5f x3a x28 x44 x4b xec)) O
O)))
O)
O)
(C x31 (Some (W x6f x28 x32 x1c xbd x62 x3c x8b)) (C x5f None (C x30 None (C x30 (Some (W x70 x8f xde x9c x2e x30 x98 x19)) O
(C x31 (Some (W x23 x91 xde x9c x2e x31 x98 x19)) O
(C x32 (Some (W xd6 x92 xde x9c x2e x32 x98 x19)) O
O)))
O)
O)
(C x32 (Some (W x22 x2a x32 x1c xbd x63 x3c x8b)) (C x5f None (C x30 None (C x30 (Some (W x1f x50 x47 xe6 x39 x3a x1a xef)) O
(C x31 (Some (W x6c x4e x47 xe6 x39 x39 x1a xef)) O
(C x32 (Some (W x85 x53 x47 xe6 x39 x3c x1a xef)) O
O)))
O)
O)
O)))
O)
O)
(C x36 (Some (W x3e xde x49 x2d xc2 x93 xb5 xb0)) (C x5f None (C x30 None (C x30 (Some (W xcb xa9 xb0 xb8 xc4 x2b xe8 xe2)) (C x5f None (C x30 None (C x30 (Some (W xfc x6a x43 xfa xb5 xc1 x72 xf1)) O
(C x31 (Some (W xaf x6c x43 xfa xb5 xc2 x72 xf1)) O
(C x32 (Some (W x62 x6e x43 xfa xb5 xc3 x72 xf1)) O
O)))
O)
O)
(C x31 (Some (W x18 xa8 xb0 xb8 xc4 x2a xe8 xe2)) (C x5f None (C x30 None (C x30 (Some (W xad x8b xd9 x98 xaf xd7 x6b xc5)) O
(C x31 (Some (W xfa x89 xd9 x98 xaf xd6 x6b xc5)) O
(C x32 (Some (W x47 x88 xd9 x98 xaf xd5 x6b xc5)) O
O)))
O)
O)
(C x32 (Some (W x31 xad xb0 xb8 xc4 x2d xe8 xe2)) (C x5f None (C x30 None (C x30 (Some (W xba xae x2a xe0 xc8 x95 xa0 x1e)) O
(C x31 (Some (W x6d xb0 x2a xe0 xc8 x96 xa0 x1e)) O
(C x32 (Some (W x54 xab x2a xe0 xc8 x93 xa0 x1e)) O
O)))
O)
O)
O)))
O)
O)
(C x37 (Some (W xf1 xdf x49 x2d xc2 x94 xb5 xb0)) (C x5f None (C x30 None (C x30 (Some (W x7a xbf x1a x1a xcb x35 xef x0e)) (C x5f None (C x30 None (C x30 (Some (W x77 xb1 x15 x08 xb0 xa2 x4f x39)) O
(C x31 (Some (W xc4 xaf x15 x08 xb0 xa1 x4f x39)) O
(C x32 (Some (W xdd xb4 x15 x08 xb0 xa4 x4f x39)) O
O)))
O)
O)
(C x31 (Some (W x2d xc1 x1a x1a xcb x36 xef x0e)) (C x5f None (C x30 None (C x30 (Some (W xe6 x69 x21 x51 xbb x8c x64 x0e)) O
(C x31 (Some (W x99 x6b x21 x51 xbb x8d x64 x0e)) O
(C x32 (Some (W x80 x66 x21 x51 xbb x8a x64 x0e)) O
O)))
O)
O)
(C x32 (Some (W x14 xbc x1a x1a xcb x33 xef x0e)) (C x5f None (C x30 None (C x30 (Some (W xd9 x46 xd0 x09 xa2 xce x2f xb5)) O
(C x31 (Some (W x26 x45 xd0 x09 xa2 xcd x2f xb5)) O
(C x32 (Some (W x73 x43 xd0 x09 xa2 xcc x2f xb5)) O
O)))
O)
O)
O)))
O)
O)
(C x38 (Some (W x0c xd4 x49 x2d xc2 x8d xb5 xb0)) (C x5f None (C x30 None (C x30 (Some (W x51 xe0 x6a x64 x93 x6f x4a x5b)) (C x5f None (C x30 None (C x30 (Some (W x9a x76 xde x82 x06 x17 x86 x84)) O
(C x31 (Some (W x4d x78 xde x82 x06 x18 x86 x84)) O
(C x32 (Some (W x34 x73 xde x82 x06 x15 x86 x84)) O
O)))
O)
O)
(C x31 (Some (W x9e xde x6a x64 x93 x6e x4a x5b)) (C x5f None (C x30 None (C x30 (Some (W x6b xcc x02 x20 x00 x0d xcc x56)) O
(C x31 (Some (W xb8 xca x02 x20 x00 x0c xcc x56)) O
(C x32 (Some (W xd1 xcf x02 x20 x00 x0f xcc x56)) O
O)))
O)
O)
(C x32 (Some (W xeb xdc x6a x64 x93 x6d x4a x5b)) (C x5f None (C x30 None (C x30 (Some (W x5c x88 xf6 x10 xf6 xc2 x15 xac)) O
(C x31 (Some (W x0f x8a xf6 x10 xf6 xc3 x15 xac)) O
(C x32 (Some (W xc2 x8b xf6 x10 xf6 xc4 x15 xac)) O
O)))
O)
O)
O)))
O)
O)
(C x39 (Some (W xbf xd5 x49 x2d xc2 x8e xb5 xb0)) (C x5f None (C x30 None (C x30 (Some (W x80 x98 x77 xff x9a x19 x43 xb1)) (C x5f None (C x30 None (C x30 (Some (W xf5 x7d x9b xbb x4f x3c x88 xdb)) O
(C x31 (Some (W x42 x7c x9b xbb x4f x3b x88 xdb)) O
(C x32 (Some (W x8f x7a x9b xbb x4f x3a x88 xdb)) O
O)))
O)
O)
(C x31 (Some (W x33 x9a x77 xff x9a x1a x43 xb1)) (C x5f None (C x30 None (C x30 (Some (W x04 x01 x1a x58 x57 x06 x34 x33)) O
(C x31 (Some (W xb7 x02 x1a x58 x57 x07 x34 x33)) O
(C x32 (Some (W x6a x04 x1a x58 x57 x08 x34 x33)) O
O)))
O)
O)
(C x32 (Some (W xe6 x9b x77 xff x9a x1b x43 xb1)) (C x5f None (C x30 None (C x30 (Some (W x53 xe0 x83 xb9 x5d xf0 x3a x5f)) O
(C x31 (Some (W xa0 xde x83 xb9 x5d xef x3a x5f)) O
(C x32 (Some (W xb9 xe3 x83 xb9 x5d xf2 x3a x5f)) O
O)))
O)
O)
O)))
O)
O)
O))))))))))
(C x35 None (C x30 (Some (W x2d xfb x4c x2d xc2 x1b xb9 xb0)) (C x5f None (C x30 None (C x30 (Some (W xe6 x27 x3a x4f x0b xbe x8a x54)) (C x5f None (C x30 None (C x30 (Some (W x53 x64 x5f x5b x42 xe3 x1a xbd)) O
(C x31 (Some (W xa0 x62 x5f x5b x42 xe2 x1a xbd)) O
(C x32 (Some (W xb9 x67 x5f x5b x42 xe5 x1a xbd)) O
O)))
O)
O)
(C x31 (Some (W x99 x29 x3a x4f x0b xbf x8a x54)) (C x5f None (C x30 None (C x30 (Some (W x62 xa8 x6b x6a x4c x2d xd1 x67)) O
(C x31 (Some (W x15 xaa x6b x6a x4c x2e xd1 x67)) O
(C x32 (Some (W xfc xa4 x6b x6a x4c x2b xd1 x67)) O
O)))
O)
O)
(C x32 (Some (W x80 x24 x3a x4f x0b xbc x8a x54)) (C x5f None (C x30 None (C x30 (Some (W xf5 x01 x77 x5d x34 x2f x68 x39)) O
(C x31 (Some (W x42 x00 x77 x5d x34 x2e x68 x39)) O
(C x32 (Some (W x8f xfe x76 x5d x34 x2d x68 x39)) O
O)))
O)
O)
O)))
O)
O)
(C x31 (Some (W x7a xf9 x4c x2d xc2 x1a xb9 xb0)) (C x5f None (C x30 None (C x30 (Some (W x77 x6f x2e x06 x00 xd4 x75 x7f)) (C x5f None (C x30 None (C x30 (Some (W x38 x73 xdb x1f xc9 x17 x58 x48)) O
(C x31 (Some (W xeb x74 xdb x1f xc9 x18 x58 x48)) O
(C x32 (Some (W x9e x76 xdb x1f xc9 x19 x58 x48)) O
O)))
O)
O)
(C x31 (Some (W xc4 x6d x2e x06 x00 xd3 x75 x7f)) (C x5f None (C x30 None (C x30 (Some (W xc9 xb2 x71 x84 xc1 x4d xf2 xf1)) O
(C x31 (Some (W x16 xb1 x71 x84 xc1 x4c xf2 xf1)) O
(C x32 (Some (W x63 xaf x71 x84 xc1 x4b xf2 xf1)) O
O)))
O)
O)
(C x32 (Some (W xdd x72 x2e x06 x00 xd6 x75 x7f)) (C x5f None (C x30 None (C x30 (Some (W x16 x2b xc3 x91 xd9 x4b xc8 x20)) O
(C x31 (Some (W xc9 x2c xc3 x91 xd9 x4c xc8 x20)) O
(C x32 (Some (W xb0 x27 xc3 x91 xd9 x49 xc8 x20)) O
O)))
O)
O)
O)))
O)
O)
(C x32 (Some (W xc7 xf7 x4c x2d xc2 x19 xb9 xb0)) (C x5f None (C x30 None (C x30 (Some (W x08 xaf xc4 x6a xf8 x09 x10 x29)) (C x5f None (C x30 None (C x30 (Some (W xdd xbe x08 x0b x16 xca x52 x31)) O
(C x31 (Some (W x2a xbd x08 x0b x16 xc9 x52 x31)) O
(C x32 (Some (W x77 xbb x08 x0b x16 xc8 x52 x31)) O
O)))
O)
O)
(C x31 (Some (W xbb xb0 xc4 x6a xf8 x0a x10 x29)) (C x5f None (C x30 None (C x30 (Some (W xec x48 x72 xa6 x1d x74 xb8 x87)) O
(C x31 (Some (W x9f x4a x72 xa6 x1d x75 xb8 x87)) O
(C x32 (Some (W x52 x4c x72 xa6 x1d x76 xb8 x87)) O
O)))
O)
O)
(C x32 (Some (W x6e xb2 xc4 x6a xf8 x0b x10 x29)) (C x5f None (C x30 None (C x30 (Some (W x3b x21 xf1 x08 x24 x7e x05 xb5)) O
(C x31 (Some (W x88 x1f xf1 x08 x24 x7d x05 xb5)) O
(C x32 (Some (W xa1 x24 xf1 x08 x24 x80 x05 xb5)) O
O)))
O)
O)
O)))
O)
O)
(C x33 (Some (W x14 xf6 x4c x2d xc2 x18 xb9 xb0)) (C x5f None (C x30 None (C x30 (Some (W xd9 x04 xe9 x07 xf2 xff x55 xfb)) (C x5f None (C x30 None (C x30 (Some (W xa2 x46 x82 xa7 xd9 x13 xe8 x12)) O
(C x31 (Some (W x55 x48 x82 xa7 xd9 x14 xe8 x12)) O
(C x32 (Some (W x3c x43 x82 xa7 xd9 x11 xe8 x12)) O
O)))
O)
O)
(C x31 (Some (W x26 x03 xe9 x07 xf2 xfe x55 xfb)) (C x5f None (C x30 None (C x30 (Some (W x93 xad x74 x80 xd4 xc9 xac x11)) O
(C x31 (Some (W xe0 xab x74 x80 xd4 xc8 xac x11)) O
(C x32 (Some (W xf9 xb0 x74 x80 xd4 xcb xac x11)) O
O)))
O)
O)
(C x32 (Some (W x73 x01 xe9 x07 xf2 xfd x55 xfb)) (C x5f None (C x30 None (C x30 (Some (W x44 x23 x0c x37 xc9 xdf x2a x3c)) O
(C x31 (Some (W xf7 x24 x0c x37 xc9 xe0 x2a x3c)) O
(C x32 (Some (W xaa x26 x0c x37 xc9 xe1 x2a x3c)) O
O)))
O)
O)
O)))
O)
O)
(C x34 (Some (W x61 xf4 x4c x2d xc2 x17 xb9 xb0)) (C x5f None (C x30 None (C x30 (Some (W x2a xf7 xdc xf8 xe7 xd5 x9f x50)) (C x5f None (C x30 None (C x30 (Some (W x67 x4a x3d x98 x1f x95 xfa x44)) O
(C x31 (Some (W xb4 x48 x3d x98 x1f x94 xfa x44)) O
(C x32 (Some (W xcd x4d x3d x98 x1f x97 xfa x44)) O
O)))
O)
O)
(C x31 (Some (W xdd xf8 xdc xf8 xe7 xd6 x9f x50)) (C x5f None (C x30 None (C x30 (Some (W x16 xad x4a xbf x24 xbf x35 x46)) O
(C x31 (Some (W xc9 xae x4a xbf x24 xc0 x35 x46)) O
(C x32 (Some (W xb0 xa9 x4a xbf x24 xbd x35 x46)) O
O)))
O)
O)
(C x32 (Some (W xc4 xf3 xdc xf8 xe7 xd3 x9f x50)) (C x5f None (C x30 None (C x30 (Some (W xc9 x34 xf9 xb1 x0c xc1 x5f x17)) O
(C x31 (Some (W x16 x33 xf9 xb1 x0c xc0 x5f x17)) O
(C x32 (Some (W x63 x31 xf9 xb1 x0c xbf x5f x17)) O
O)))
O)
O)
O)))
O)
O)
(C x35 (Some (W xae xf2 x4c x2d xc2 x16 xb9 xb0)) (C x5f None (C x30 None (C x30 (Some (W x7b xe1 x72 x97 xe1 xcb x98 x24)) (C x5f None (C x30 None (C x30 (Some (W xac x03 x6c xdc x21 x74 x01 x7e)) O
(C x31 (Some (W x5f x05 x6c xdc x21 x75 x01 x7e)) O
(C x32 (Some (W x12 x07 x6c xdc x21 x76 x01 x7e)) O
O)))
O)
O)
(C x31 (Some (W xc8 xdf x72 x97 xe1 xca x98 x24)) (C x5f None (C x30 None (C x30 (Some (W x9d x79 x02 x41 x1a xca x9b x27)) O
(C x31 (Some (W xea x77 x02 x41 x1a xc9 x9b x27)) O
(C x32 (Some (W x37 x76 x02 x41 x1a xc8 x9b x27)) O
O)))
O)
O)
(C x32 (Some (W xe1 xe4 x72 x97 xe1 xcd x98 x24)) (C x5f None (C x30 None (C x30 (Some (W xaa x9c x53 x88 x33 x88 xd0 x80)) O
(C x31 (Some (W x5d x9e x53 x88 x33 x89 xd0 x80)) O
(C x32 (Some (W x44 x99 x53 x88 x33 x86 xd0 x80)) O
O)))
O)
O)
O)))
O)
O)
(C x36 (Some (W xfb xf0 x4c x2d xc2 x15 xb9 xb0)) (C x5f None (C x30 None (C x30 (Some (W x2c x5e xf5 x4c xd6 xc1 xd0 x4d)) (C x5f None (C x30 None (C x30 (Some (W xb1 xac x32 xe1 x62 x12 x6d x32)) O
(C x31 (Some (W xfe xaa x32 xe1 x62 x11 x6d x32)) O
(C x32 (Some (W x4b xa9 x32 xe1 x62 x10 x6d x32)) O
O)))
O)
O)
(C x31 (Some (W xdf x5f xf5 x4c xd6 xc2 xd0 x4d)) (C x5f None (C x30 None (C x30 (Some (W x60 x7d xb2 x09 x68 xbc x5b x35)) O
(C x31 (Some (W x13 x7f xb2 x09 x68 xbd x5b x35)) O
(C x32 (Some (W xc6 x80 xb2 x09 x68 xbe x5b x35)) O
O)))
O)
O)
(C x32 (Some (W x92 x61 xf5 x4c xd6 xc3 xd0 x4d)) (C x5f None (C x30 None (C x30 (Some (W x0f x3e x1b x53 x73 xc6 xdd x0a)) O
(C x31 (Some (W x5c x3c x1b x53 x73 xc5 xdd x0a)) O
(C x32 (Some (W x75 x41 x1b x53 x73 xc8 xdd x0a)) O
O)))
O)
O)
O)))
O)
O)
(C x37 (Some (W x48 xef x4c x2d xc2 x14 xb9 xb0)) (C x5f None (C x30 None (C x30 (Some (W x1d xd4 x8b xb1 xce x17 x6b xf7)) (C x5f None (C x30 None (C x30 (Some (W x56 xf6 x5f xe4 xb6 xa5 xc7 x9a)) O
(C x31 (Some (W x09 xf8 x5f xe4 xb6 xa6 xc7 x9a)) O
(C x32 (Some (W xf0 xf2 x5f xe4 xb6 xa3 xc7 x9a)) O
O)))
O)
O)
(C x31 (Some (W x6a xd2 x8b xb1 xce x16 x6b xf7)) (C x5f None (C x30 None (C x30 (Some (W xa7 xe8 x53 xd5 xac x7b x11 xf0)) O
(C x31 (Some (W xf4 xe6 x53 xd5 xac x7a x11 xf0)) O
(C x32 (Some (W x0d xec x53 xd5 xac x7d x11 xf0)) O
O)))
O)
O)
(C x32 (Some (W xb7 xd0 x8b xb1 xce x15 x6b xf7)) (C x5f None (C x30 None (C x30 (Some (W x78 x3e x78 x72 xa6 x71 x57 xc2)) O
(C x31 (Some (W x2b x40 x78 x72 xa6 x72 x57 xc2)) O
(C x32 (Some (W xde x41 x78 x72 xa6 x73 x57 xc2)) O
O)))
O)
O)
O)))
O)
O)
(C x38 (Some (W x95 xed x4c x2d xc2 x13 xb9 xb0)) (C x5f None (C x30 None (C x30 (Some (W xce xfb x0c x4f xc8 x0d x1e xca)) (C x5f None (C x30 None (C x30 (Some (W xdb x06 xef xf2 xe0 xf6 x1c x3c)) O
(C x31 (Some (W x28 x05 xef xf2 xe0 xf5 x1c x3c)) O
(C x32 (Some (W x41 x0a xef xf2 xe0 xf8 x1c x3c)) O
O)))
O)
O)
(C x31 (Some (W x81 xfd x0c x4f xc8 x0e x1e xca)) (C x5f None (C x30 None (C x30 (Some (W x0a xee x56 x3c xec x80 x9e x11)) O
(C x31 (Some (W xbd xef x56 x3c xec x81 x9e x11)) O
(C x32 (Some (W xa4 xea x56 x3c xec x7e x9e x11)) O
O)))
O)
O)
(C x32 (Some (W x68 xf8 x0c x4f xc8 x0b x1e xca)) (C x5f None (C x30 None (C x30 (Some (W x7d x75 x06 x81 xd0 x42 xac x63)) O
(C x31 (Some (W xca x73 x06 x81 xd0 x41 xac x63)) O
(C x32 (Some (W x17 x72 x06 x81 xd0 x40 xac x63)) O
O)))
O)
O)
O)))
O)
O)
(C x39 (Some (W xe2 xeb x4c x2d xc2 x12 xb9 xb0)) (C x5f None (C x30 None (C x30 (Some (W xdf xe5 xa3 x3f xbe xc3 xfa x1e)) (C x5f None (C x30 None (C x30 (Some (W x60 xff x39 x37 xb3 x2f xc9 x5a)) O
(C x31 (Some (W x13 x01 x3a x37 xb3 x30 xc9 x5a)) O
(C x32 (Some (W xc6 x02 x3a x37 xb3 x31 xc9 x5a)) O
O)))
O)
O)
(C x31 (Some (W x2c xe4 xa3 x3f xbe xc2 xfa x1e)) (C x5f None (C x30 None (C x30 (Some (W xb1 x2e xba x0e xae x85 xda x57)) O
(C x31 (Some (W xfe x2c xba x0e xae x84 xda x57)) O
(C x32 (Some (W x4b x2b xba x0e xae x83 xda x57)) O
O)))
O)
O)
(C x32 (Some (W x45 xe9 xa3 x3f xbe xc5 xfa x1e)) (C x5f None (C x30 None (C x30 (Some (W x3e xfc x0b xe2 xc4 xc3 x51 x5c)) O
(C x31 (Some (W xf1 xfd x0b xe2 xc4 xc4 x51 x5c)) O
(C x32 (Some (W xd8 xf8 x0b xe2 xc4 xc1 x51 x5c)) O
O)))
O)
O)
O)))
O)
O)
O))))))))))
(C x36 None (C x30 (Some (W x56 xde x4f x2d xc2 x81 xbc xb0)) (C x5f None (C x30 None (C x30 (Some (W x43 x27 x50 x01 x33 x1b xd8 x71)) (C x5f None (C x30 None (C x30 (Some (W x14 xff xc9 x21 x4f xfa xde x01)) O
(C x31 (Some (W xc7 x00 xca x21 x4f xfb xde x01)) O
(C x32 (Some (W x7a x02 xca x21 x4f xfc xde x01)) O
O)))
O)
O)
(C x31 (Some (W x90 x25 x50 x01 x33 x1a xd8 x71)) (C x5f None (C x30 None (C x30 (Some (W xc5 x26 x4b xbf x48 xf0 x91 xd4)) O
(C x31 (Some (W x12 x25 x4b xbf x48 xef x91 xd4)) O
(C x32 (Some (W x5f x23 x4b xbf x48 xee x91 xd4)) O
O)))
O)
O)
(C x32 (Some (W xa9 x2a x50 x01 x33 x1d xd8 x71)) (C x5f None (C x30 None (C x30 (Some (W x72 x0c xb1 x07 x62 xae x0c x2f)) O
(C x31 (Some (W x25 x0e xb1 x07 x62 xaf x0c x2f)) O
(C x32 (Some (W x0c x09 xb1 x07 x62 xac x0c x2f)) O
O)))
O)
O)
O)))
O)
O)
(C x31 (Some (W x09 xe0 x4f x2d xc2 x82 xbc xb0)) (C x5f None (C x30 None (C x30 (Some (W x12 x16 x5c x4a x3e x25 xed x46)) (C x5f None (C x30 None (C x30 (Some (W x8f xcf x4c x5d xd4 xc6 x7c x9f)) O
(C x31 (Some (W xdc xcd x4c x5d xd4 xc5 x7c x9f)) O
(C x32 (Some (W xf5 xd2 x4c x5d xd4 xc8 x7c x9f)) O
O)))
O)
O)
(C x31 (Some (W xc5 x17 x5c x4a x3e x26 xed x46)) (C x5f None (C x30 None (C x30 (Some (W xbe x0b xb6 xbe xda x50 x83 xcb)) O
(C x31 (Some (W x71 x0d xb6 xbe xda x51 x83 xcb)) O
(C x32 (Some (W x58 x08 xb6 xbe xda x4e x83 xcb)) O
O)))
O)
O)
(C x32 (Some (W xac x12 x5c x4a x3e x23 xed x46)) (C x5f None (C x30 None (C x30 (Some (W x31 x3e x64 xeb xc3 x12 x0c xc7)) O
(C x31 (Some (W x7e x3c x64 xeb xc3 x11 x0c xc7)) O
(C x32 (Some (W xcb x3a x64 xeb xc3 x10 x0c xc7)) O
O)))
O)
O)
O)))
O)
O)
(C x32 (Some (W xf0 xda x4f x2d xc2 x7f xbc xb0)) (C x5f None (C x30 None (C x30 (Some (W xe5 x95 x67 x8f x22 x67 x67 x99)) (C x5f None (C x30 None (C x30 (Some (W x1e x42 x20 x94 x2d xc1 x30 x18)) O
(C x31 (Some (W xd1 x43 x20 x94 x2d xc2 x30 x18)) O
(C x32 (Some (W xb8 x3e x20 x94 x2d xbf x30 x18)) O
O)))
O)
O)
(C x31 (Some (W x32 x94 x67 x8f x22 x66 x67 x99)) (C x5f None (C x30 None (C x30 (Some (W xef x97 x44 x31 x27 xb7 x76 xea)) O
(C x31 (Some (W x3c x96 x44 x31 x27 xb6 x76 xea)) O
(C x32 (Some (W x55 x9b x44 x31 x27 xb9 x76 xea)) O
O)))
O)
O)
(C x32 (Some (W x7f x92 x67 x8f x22 x65 x67 x99)) (C x5f None (C x30 None (C x30 (Some (W x40 xd7 xdb xe7 x1b xad xf4 x14)) O
(C x31 (Some (W xf3 xd8 xdb xe7 x1b xae xf4 x14)) O
(C x32 (Some (W xa6 xda xdb xe7 x1b xaf xf4 x14)) O
O)))
O)
O)
O)))
O)
O)
(C x33 (Some (W xa3 xdc x4f x2d xc2 x80 xbc xb0)) (C x5f None (C x30 None (C x30 (Some (W x34 x5e x74 xd8 x2d xf1 x7c x6e)) (C x5f None (C x30 None (C x30 (Some (W x39 x89 x24 xea xdd x91 xb7 xb2)) O
(C x31 (Some (W x86 x87 x24 xea xdd x90 xb7 xb2)) O
(C x32 (Some (W xd3 x85 x24 xea xdd x8f xb7 xb2)) O
O)))
O)
O)
(C x31 (Some (W xe7 x5f x74 xd8 x2d xf2 x7c x6e)) (C x5f None (C x30 None (C x30 (Some (W xe8 x9e x8e x4b xe4 x9b xbe xde)) O
(C x31 (Some (W x9b xa0 x8e x4b xe4 x9c xbe xde)) O
(C x32 (Some (W x4e xa2 x8e x4b xe4 x9d xbe xde)) O
O)))
O)
O)
(C x32 (Some (W x9a x61 x74 xd8 x2d xf3 x7c x6e)) (C x5f None (C x30 None (C x30 (Some (W x57 xdb xf6 x5a xee x65 xe1 x89)) O
(C x31 (Some (W xa4 xd9 xf6 x5a xee x64 xe1 x89)) O
(C x32 (Some (W xbd xde xf6 x5a xee x67 xe1 x89)) O
O)))
O)
O)
O)))
O)
O)
(C x34 (Some (W x22 xe5 x4f x2d xc2 x85 xbc xb0)) (C x5f None (C x30 None (C x30 (Some (W x1f x39 xad x91 x57 xe3 x21 xa0)) (C x5f None (C x30 None (C x30 (Some (W xa0 x70 xcd xd6 x3b xd6 xe3 x1e)) O
(C x31 (Some (W x53 x72 xcd xd6 x3b xd7 xe3 x1e)) O
(C x32 (Some (W x06 x74 xcd xd6 x3b xd8 xe3 x1e)) O
O)))
O)
O)
(C x31 (Some (W x6c x37 xad x91 x57 xe2 x21 xa0)) (C x5f None (C x30 None (C x30 (Some (W xf1 xf4 x4e xc6 x31 x2c x7a x72)) O
(C x31 (Some (W x3e xf3 x4e xc6 x31 x2b x7a x72)) O
(C x32 (Some (W x8b xf1 x4e xc6 x31 x2a x7a x72)) O
O)))
O)
O)
(C x32 (Some (W x85 x3c xad x91 x57 xe5 x21 xa0)) (C x5f None (C x30 None (C x30 (Some (W x7e x6d x9f x81 x4d x6a x6c x20)) O
(C x31 (Some (W x31 x6f x9f x81 x4d x6b x6c x20)) O
(C x32 (Some (W x18 x6a x9f x81 x4d x68 x6c x20)) O
O)))
O)
O)
O)))
O)
O)
(C x35 (Some (W xd5 xe6 x4f x2d xc2 x86 xbc xb0)) (C x5f None (C x30 None (C x30 (Some (W x0e xa4 x17 xb9 x5c x2d xca xa1)) (C x5f None (C x30 None (C x30 (Some (W x1b x3f xbc xa0 x7b x6a xd3 x69)) O
(C x31 (Some (W x68 x3d xbc xa0 x7b x69 xd3 x69)) O
(C x32 (Some (W x81 x42 xbc xa0 x7b x6c xd3 x69)) O
O)))
O)
O)
(C x31 (Some (W xc1 xa5 x17 xb9 x5c x2e xca xa1)) (C x5f None (C x30 None (C x30 (Some (W x4a x7b x25 x02 x82 xf4 xd9 x95)) O
(C x31 (Some (W xfd x7c x25 x02 x82 xf5 xd9 x95)) O
(C x32 (Some (W xe4 x77 x25 x02 x82 xf2 xd9 x95)) O
O)))
O)
O)
(C x32 (Some (W xa8 xa0 x17 xb9 x5c x2b xca xa1)) (C x5f None (C x30 None (C x30 (Some (W xbd xad xd3 x2e x6b xb6 x62 x91)) O
(C x31 (Some (W x0a xac xd3 x2e x6b xb5 x62 x91)) O
(C x32 (Some (W x57 xaa xd3 x2e x6b xb4 x62 x91)) O
O)))
O)
O)
O)))
O)
O)
(C x36 (Some (W xbc xe1 x4f x2d xc2 x83 xbc xb0)) (C x5f None (C x30 None (C x30 (Some (W x81 xd6 xc5 xe5 x45 xef x52 x9d)) (C x5f None (C x30 None (C x30 (Some (W x0a xe1 x1d x20 x8b xf4 x9d x35)) O
(C x31 (Some (W xbd xe2 x1d x20 x8b xf5 x9d x35)) O
(C x32 (Some (W xa4 xdd x1d x20 x8b xf2 x9d x35)) O
O)))
O)
O)
(C x31 (Some (W xce xd4 xc5 xe5 x45 xee x52 x9d)) (C x5f None (C x30 None (C x30 (Some (W xdb xf9 xb5 xd6 x7f x6a x1c x60)) O
(C x31 (Some (W x28 xf8 xb5 xd6 x7f x69 x1c x60)) O
(C x32 (Some (W x41 xfd xb5 xd6 x7f x6c x1c x60)) O
O)))
O)
O)
(C x32 (Some (W x1b xd3 xc5 xe5 x45 xed x52 x9d)) (C x5f None (C x30 None (C x30 (Some (W x8c xdc xa7 x75 x79 xe0 x81 x34)) O
(C x31 (Some (W x3f xde xa7 x75 x79 xe1 x81 x34)) O
(C x32 (Some (W xf2 xdf xa7 x75 x79 xe2 x81 x34)) O
O)))
O)
O)
O)))
O)
O)
(C x37 (Some (W x6f xe3 x4f x2d xc2 x84 xbc xb0)) (C x5f None (C x30 None (C x30 (Some (W x70 x78 x44 x48 x4c xd9 x9f xca)) (C x5f None (C x30 None (C x30 (Some (W x65 xca x91 x63 x51 xe2 x51 xec)) O
(C x31 (Some (W xb2 xc8 x91 x63 x51 xe1 x51 xec)) O
(C x32 (Some (W xff xc6 x91 x63 x51 xe0 x51 xec)) O
O)))
O)
O)
(C x31 (Some (W x23 x7a x44 x48 x4c xda x9f xca)) (C x5f None (C x30 None (C x30 (Some (W xb4 x92 x9e xac x5c x6c x67 xc1)) O
(C x31 (Some (W x67 x94 x9e xac x5c x6d x67 xc1)) O
(C x32 (Some (W x1a x96 x9e xac x5c x6e x67 xc1)) O
O)))
O)
O)
(C x32 (Some (W xd6 x7b x44 x48 x4c xdb x9f xca)) (C x5f None (C x30 None (C x30 (Some (W xc3 x5b x7a xd5 x61 x96 xc2 xc4)) O
(C x31 (Some (W x10 x5a x7a xd5 x61 x95 xc2 xc4)) O
(C x32 (Some (W x29 x5f x7a xd5 x61 x98 xc2 xc4)) O
O)))
O)
O)
O)))
O)
O)
(C x38 (Some (W xee xeb x4f x2d xc2 x89 xbc xb0)) (C x5f None (C x30 None (C x30 (Some (W xbb x89 x7d x01 x76 xeb x44 xfc)) (C x5f None (C x30 None (C x30 (Some (W xec x3b x39 x8a xbc xe7 xb7 xab)) O
(C x31 (Some (W x9f x3d x39 x8a xbc xe8 xb7 xab)) O
(C x32 (Some (W x52 x3f x39 x8a xbc xe9 xb7 xab)) O
O)))
O)
O)
(C x31 (Some (W x08 x88 x7d x01 x76 xea x44 xfc)) (C x5f None (C x30 None (C x30 (Some (W xdd xb1 xcf xee xb4 x3d x52 x55)) O
(C x31 (Some (W x2a xb0 xcf xee xb4 x3c x52 x55)) O
(C x32 (Some (W x77 xae xcf xee xb4 x3b x52 x55)) O
O)))
O)
O)
(C x32 (Some (W x21 x8d x7d x01 x76 xed x44 xfc)) (C x5f None (C x30 None (C x30 (Some (W xea xd4 x20 x36 xce xfb x86 xae)) O
(C x31 (Some (W x9d xd6 x20 x36 xce xfc x86 xae)) O
(C x32 (Some (W x84 xd1 x20 x36 xce xf9 x86 xae)) O
O)))
O)
O)
O)))
O)
O)
(C x39 (Some (W xa1 xed x4f x2d xc2 x8a xbc xb0)) (C x5f None (C x30 None (C x30 (Some (W x6a x4a xe6 x4a x81 xf5 xc6 xd1)) (C x5f None (C x30 None (C x30 (Some (W xa7 x10 xd2 x4f xa3 x3b x9a x5f)) O
(C x31 (Some (W xf4 x0e xd2 x4f xa3 x3a x9a x5f)) O
(C x32 (Some (W x0d x14 xd2 x4f xa3 x3d x9a x5f)) O
O)))
O)
O)
(C x31 (Some (W x1d x4c xe6 x4a x81 xf6 xc6 xd1)) (C x5f None (C x30 None (C x30 (Some (W x56 x1e xde x5e xad x65 x50 x0a)) O
(C x31 (Some (W x09 x20 xde x5e xad x66 x50 x0a)) O
(C x32 (Some (W xf0 x1a xde x5e xad x63 x50 x0a)) O
O)))
O)
O)
(C x32 (Some (W x04 x47 xe6 x4a x81 xf3 xc6 xd1)) (C x5f None (C x30 None (C x30 (Some (W x09 xa6 x8c x51 x95 x67 x7a xdb)) O
(C x31 (Some (W x56 xa4 x8c x51 x95 x66 x7a xdb)) O
(C x32 (Some (W xa3 xa2 x8c x51 x95 x65 x7a xdb)) O
O)))
O)
O)
O)))
O)
O)
O))))))))))
(C x37 None (C x30 (Some (W xdf xf7 x52 x2d xc2 x07 xc0 xb0)) (C x5f None (C x30 None (C x30 (Some (W x60 x05 x07 xed x67 xb9 xf1 xe1)) (C x5f None (C x30 None (C x30 (Some (W x95 x7f x48 x03 x03 x48 xa6 x7d)) O
(C x31 (Some (W xe2 x7d x48 x03 x03 x47 xa6 x7d)) O
(C x32 (Some (W x2f x7c x48 x03 x03 x46 xa6 x7d)) O
O)))
O)
O)
(C x31 (Some (W x13 x07 x07 xed x67 xba xf1 xe1)) (C x5f None (C x30 None (C x30 (Some (W xa4 xc3 x54 x12 x0d x92 x5c x28)) O
(C x31 (Some (W x57 xc5 x54 x12 x0d x93 x5c x28)) O
(C x32 (Some (W x0a xc7 x54 x12 x0d x94 x5c x28)) O
O)))
O)
O)
(C x32 (Some (W xc6 x08 x07 xed x67 xbb xf1 xe1)) (C x5f None (C x30 None (C x30 (Some (W xf3 xa2 xbe x73 x13 x7c x63 x54)) O
(C x31 (Some (W x40 xa1 xbe x73 x13 x7b x63 x54)) O
(C x32 (Some (W x59 xa6 xbe x73 x13 x7e x63 x54)) O
O)))
O)
O)
O)))
O)
O)
(C x31 (Some (W x2c xf6 x52 x2d xc2 x06 xc0 xb0)) (C x5f None (C x30 None (C x30 (Some (W xb1 x34 x87 xc4 x62 x0f x03 xdf)) (C x5f None (C x30 None (C x30 (Some (W x3a x31 x68 xe7 xcb xa2 xd6 xc4)) O
(C x31 (Some (W xed x32 x68 xe7 xcb xa3 xd6 xc4)) O
(C x32 (Some (W xd4 x2d x68 xe7 xcb xa0 xd6 xc4)) O
O)))
O)
O)
(C x31 (Some (W xfe x32 x87 xc4 x62 x0e x03 xdf)) (C x5f None (C x30 None (C x30 (Some (W x8b x70 xff x9d xc0 x98 x54 xef)) O
(C x31 (Some (W xd8 x6e xff x9d xc0 x97 x54 xef)) O
(C x32 (Some (W xf1 x73 xff x9d xc0 x9a x54 xef)) O
O)))
O)
O)
(C x32 (Some (W x4b x31 x87 xc4 x62 x0d x03 xdf)) (C x5f None (C x30 None (C x30 (Some (W x7c xed x80 x01 xb9 xce xa8 x97)) O
(C x31 (Some (W x2f xef x80 x01 xb9 xcf xa8 x97)) O
(C x32 (Some (W xe2 xf0 x80 x01 xb9 xd0 xa8 x97)) O
O)))
O)
O)
O)))
O)
O)
(C x32 (Some (W x45 xfb x52 x2d xc2 x09 xc0 xb0)) (C x5f None (C x30 None (C x30 (Some (W x3e x02 xd9 x97 x79 x4d x7a xe3)) (C x5f None (C x30 None (C x30 (Some (W xcb xb5 x05 x68 xbc x98 x0b xf9)) O
(C x31 (Some (W x18 xb4 x05 x68 xbc x97 x0b xf9)) O
(C x32 (Some (W x31 xb9 x05 x68 xbc x9a x0b xf9)) O
O)))
O)
O)
(C x31 (Some (W xf1 x03 xd9 x97 x79 x4e x7a xe3)) (C x5f None (C x30 None (C x30 (Some (W x7a xcb x6f xc9 xc2 xa2 x12 x25)) O
(C x31 (Some (W x2d xcd x6f xc9 xc2 xa3 x12 x25)) O
(C x32 (Some (W x14 xc8 x6f xc9 xc2 xa0 x12 x25)) O
O)))
O)
O)
(C x32 (Some (W xd8 xfe xd8 x97 x79 x4b x7a xe3)) (C x5f None (C x30 None (C x30 (Some (W x6d xa8 x1e x82 xa9 xe4 xdd xcb)) O
(C x31 (Some (W xba xa6 x1e x82 xa9 xe3 xdd xcb)) O
(C x32 (Some (W x07 xa5 x1e x82 xa9 xe2 xdd xcb)) O
O)))
O)
O)
O)))
O)
O)
(C x33 (Some (W x92 xf9 x52 x2d xc2 x08 xc0 xb0)) (C x5f None (C x30 None (C x30 (Some (W x0f xc6 x6f x36 x73 xc3 x73 xb7)) (C x5f None (C x30 None (C x30 (Some (W x50 x91 x12 x75 xed x3b x85 xae)) O
(C x31 (Some (W x03 x93 x12 x75 xed x3c x85 xae)) O
(C x32 (Some (W xb6 x94 x12 x75 xed x3d x85 xae)) O
O)))
O)
O)
(C x31 (Some (W x5c xc4 x6f x36 x73 xc2 x73 xb7)) (C x5f None (C x30 None (C x30 (Some (W x61 xff x05 x2c xe2 xd1 x6f xd9)) O
(C x31 (Some (W xae xfd x05 x2c xe2 xd0 x6f xd9)) O
(C x32 (Some (W xfb xfb x05 x2c xe2 xcf x6f xd9)) O
O)))
O)
O)
(C x32 (Some (W x75 xc9 x6f x36 x73 xc5 x73 xb7)) (C x5f None (C x30 None (C x30 (Some (W x6e x22 x57 x73 xfb x8f xa4 x32)) O
(C x31 (Some (W x21 x24 x57 x73 xfb x90 xa4 x32)) O
(C x32 (Some (W x08 x1f x57 x73 xfb x8d xa4 x32)) O
O)))
O)
O)
O)))
O)
O)
(C x34 (Some (W x13 xf1 x52 x2d xc2 x03 xc0 xb0)) (C x5f None (C x30 None (C x30 (Some (W xa4 x11 x36 x7d x49 x51 xce x85)) (C x5f None (C x30 None (C x30 (Some (W xe9 xf5 xfc x6e x64 xf3 xb5 x46)) O
(C x31 (Some (W x36 xf4 xfc x6e x64 xf2 xb5 x46)) O
(C x32 (Some (W x83 xf2 xfc x6e x64 xf1 xb5 x46)) O
O)))
O)
O)
(C x31 (Some (W x57 x13 x36 x7d x49 x52 xce x85)) (C x5f None (C x30 None (C x30 (Some (W x58 x87 x66 x96 x69 xbd x5d x48)) O
(C x31 (Some (W x0b x89 x66 x96 x69 xbe x5d x48)) O
(C x32 (Some (W xbe x8a x66 x96 x69 xbf x5d x48)) O
O)))
O)
O)
(C x32 (Some (W x0a x15 x36 x7d x49 x53 xce x85)) (C x5f None (C x30 None (C x30 (Some (W x07 x48 xcf xdf x74 xc7 xdf x1d)) O
(C x31 (Some (W x54 x46 xcf xdf x74 xc6 xdf x1d)) O
(C x32 (Some (W x6d x4b xcf xdf x74 xc9 xdf x1d)) O
O)))
O)
O)
O)))
O)
O)
(C x35 (Some (W x60 xef x52 x2d xc2 x02 xc0 xb0)) (C x5f None (C x30 None (C x30 (Some (W x95 xcd x29 x6e x3f x07 x18 xdb)) (C x5f None (C x30 None (C x30 (Some (W xce x9b xd6 xe8 x9b xf3 xc9 xf7)) O
(C x31 (Some (W x81 x9d xd6 xe8 x9b xf4 xc9 xf7)) O
(C x32 (Some (W x68 x98 xd6 xe8 x9b xf1 xc9 xf7)) O
O)))
O)
O)
(C x31 (Some (W xe2 xcb x29 x6e x3f x06 x18 xdb)) (C x5f None (C x30 None (C x30 (Some (W xdf x85 x6d xd9 x91 xa9 xa6 x4c)) O
(C x31 (Some (W x2c x84 x6d xd9 x91 xa8 xa6 x4c)) O
(C x32 (Some (W x45 x89 x6d xd9 x91 xab xa6 x4c)) O
O)))
O)
O)
(C x32 (Some (W x2f xca x29 x6e x3f x05 x18 xdb)) (C x5f None (C x30 None (C x30 (Some (W x30 x70 x03 x78 x8b x9f x9f x20)) O
(C x31 (Some (W xe3 x71 x03 x78 x8b xa0 x9f x20)) O
(C x32 (Some (W x96 x73 x03 x78 x8b xa1 x9f x20)) O
O)))
O)
O)
O)))
O)
O)
(C x36 (Some (W x79 xf4 x52 x2d xc2 x05 xc0 xb0)) (C x5f None (C x30 None (C x30 (Some (W x82 x4d x1f x7b x57 x85 x81 x09)) (C x5f None (C x30 None (C x30 (Some (W xbf x8e x1f x04 x0f x93 x9e xe5)) O
(C x31 (Some (W x0c x8d x1f x04 x0f x92 x9e xe5)) O
(C x32 (Some (W x25 x92 x1f x04 x0f x95 x9e xe5)) O
O)))
O)
O)
(C x31 (Some (W x35 x4f x1f x7b x57 x86 x81 x09)) (C x5f None (C x30 None (C x30 (Some (W x2e x4f x89 x9f x16 x5d x04 x3c)) O
(C x31 (Some (W xe1 x50 x89 x9f x16 x5e x04 x3c)) O
(C x32 (Some (W xc8 x4b x89 x9f x16 x5b x04 x3c)) O
O)))
O)
O)
(C x32 (Some (W x1c x4a x1f x7b x57 x83 x81 x09)) (C x5f None (C x30 None (C x30 (Some (W x21 x2c x38 x58 xfd x9e xcf xe2)) O
(C x31 (Some (W x6e x2a x38 x58 xfd x9d xcf xe2)) O
(C x32 (Some (W xbb x28 x38 x58 xfd x9c xcf xe2)) O
O)))
O)
O)
O)))
O)
O)
(C x37 (Some (W xc6 xf2 x52 x2d xc2 x04 xc0 xb0)) (C x5f None (C x30 None (C x30 (Some (W xf3 xf0 x9f xde x4f x3b xd5 xb1)) (C x5f None (C x30 None (C x30 (Some (W xc4 x1d x5f x41 x51 x13 xa6 x39)) O
(C x31 (Some (W x77 x1f x5f x41 x51 x14 xa6 x39)) O
(C x32 (Some (W x2a x21 x5f x41 x51 x15 xa6 x39)) O
O)))
O)
O)
(C x31 (Some (W x40 xef x9f xde x4f x3a xd5 xb1)) (C x5f None (C x30 None (C x30 (Some (W xb5 x9a xe0 xa4 x49 x49 xfa xe1)) O
(C x31 (Some (W x02 x99 xe0 xa4 x49 x48 xfa xe1)) O
(C x32 (Some (W x4f x97 xe0 xa4 x49 x47 xfa xe1)) O
O)))
O)
O)
(C x32 (Some (W x59 xf4 x9f xde x4f x3d xd5 xb1)) (C x5f None (C x30 None (C x30 (Some (W x22 x41 xd5 xb1 x61 x47 x63 x10)) O
(C x31 (Some (W xd5 x42 xd5 xb1 x61 x48 x63 x10)) O
(C x32 (Some (W xbc x3d xd5 xb1 x61 x45 x63 x10)) O
O)))
O)
O)
O)))
O)
O)
(C x38 (Some (W x77 x05 x53 x2d xc2 x0f xc0 xb0)) (C x5f None (C x30 None (C x30 (Some (W x38 xa5 x1f xec xaa x89 x18 x6b)) (C x5f None (C x30 None (C x30 (Some (W x0d x97 xbb xfb x96 xe7 x01 x65)) O
(C x31 (Some (W x5a x95 xbb xfb x96 xe6 x01 x65)) O
(C x32 (Some (W xa7 x93 xbb xfb x96 xe5 x01 x65)) O
O)))
O)
O)
(C x31 (Some (W xeb xa6 x1f xec xaa x8a x18 x6b)) (C x5f None (C x30 None (C x30 (Some (W x5c x76 x25 x5d x9d xd1 x08 x91)) O
(C x31 (Some (W x0f x78 x25 x5d x9d xd2 x08 x91)) O
(C x32 (Some (W xc2 x79 x25 x5d x9d xd3 x08 x91)) O
O)))
O)
O)
(C x32 (Some (W x9e xa8 x1f xec xaa x8b x18 x6b)) (C x5f None (C x30 None (C x30 (Some (W x6b xba x31 x6c xa7 x1b xbf x3b)) O
(C x31 (Some (W xb8 xb8 x31 x6c xa7 x1a xbf x3b)) O
(C x32 (Some (W xd1 xbd x31 x6c xa7 x1d xbf x3b)) O
O)))
O)
O)
O)))
O)
O)
(C x39 (Some (W xc4 x03 x53 x2d xc2 x0e xc0 xb0)) (C x5f None (C x30 None (C x30 (Some (W xc9 xe4 xb5 x50 xa3 xbf xb2 x14)) (C x5f None (C x30 None (C x30 (Some (W xd2 x6c x78 xfd xde x79 xce xa2)) O
(C x31 (Some (W x85 x6e x78 xfd xde x7a xce xa2)) O
(C x32 (Some (W x6c x69 x78 xfd xde x77 xce xa2)) O
O)))
O)
O)
(C x31 (Some (W x16 xe3 xb5 x50 xa3 xbe xb2 x14)) (C x5f None (C x30 None (C x30 (Some (W x03 x29 x6b x9c xd8 x6f x34 x77)) O
(C x31 (Some (W x50 x27 x6b x9c xd8 x6e x34 x77)) O
(C x32 (Some (W x69 x2c x6b x9c xd8 x71 x34 x77)) O
O)))
O)
O)
(C x32 (Some (W x63 xe1 xb5 x50 xa3 xbd xb2 x14)) (C x5f None (C x30 None (C x30 (Some (W xf4 xb4 x90 x8b xce x45 x5e xca)) O
(C x31 (Some (W xa7 xb6 x90 x8b xce x46 x5e xca)) O
(C x32 (Some (W x5a xb8 x90 x8b xce x47 x5e xca)) O
O)))
O)
O)
O)))
O)
O)
O))))))))))
(C x38 None (C x30 (Some (W x68 x11 x56 x2d xc2 x8d xc3 xb0)) (C x5f None (C x30 None (C x30 (Some (W x7d x28 xa8 x11 x9e xb7 x23 x7b)) (C x5f None (C x30 None (C x30 (Some (W xf6 x73 x5d x62 x77 xb1 x50 x33)) O
(C x31 (Some (W xa9 x75 x5d x62 x77 xb2 x50 x33)) O
(C x32 (Some (W x90 x70 x5d x62 x77 xaf x50 x33)) O
O)))
O)
O)
(C x31 (Some (W xca x26 xa8 x11 x9e xb6 x23 x7b)) (C x5f None (C x30 None (C x30 (Some (W xc7 x4d xde xc5 x6f x87 xa4 xdb)) O
(C x31 (Some (W x14 x4c xde xc5 x6f x86 xa4 xdb)) O
(C x32 (Some (W x2d x51 xde xc5 x6f x89 xa4 xdb)) O
O)))
O)
O)
(C x32 (Some (W x17 x25 xa8 x11 x9e xb5 x23 x7b)) (C x5f None (C x30 None (C x30 (Some (W x18 x38 x74 x64 x69 x7d x9d xaf)) O
(C x31 (Some (W xcb x39 x74 x64 x69 x7e x9d xaf)) O
(C x32 (Some (W x7e x3b x74 x64 x69 x7f x9d xaf)) O
O)))
O)
O)
O)))
O)
O)
(C x31 (Some (W x1b x13 x56 x2d xc2 x8e xc3 xb0)) (C x5f None (C x30 None (C x30 (Some (W x8c x9c x82 x22 xa8 xe1 xf9 x27)) (C x5f None (C x30 None (C x30 (Some (W xd1 xcd xc7 x73 xdb x4c x57 xc2)) O
(C x31 (Some (W x1e xcc xc7 x73 xdb x4b x57 xc2)) O
(C x32 (Some (W x6b xca xc7 x73 xdb x4a x57 xc2)) O
O)))
O)
O)
(C x31 (Some (W x3f x9e x82 x22 xa8 xe2 xf9 x27)) (C x5f None (C x30 None (C x30 (Some (W x00 x86 xd4 x0e xe3 xf6 x4f x18)) O
(C x31 (Some (W xb3 x87 xd4 x0e xe3 xf7 x4f x18)) O
(C x32 (Some (W x66 x89 xd4 x0e xe3 xf8 x4f x18)) O
O)))
O)
O)
(C x32 (Some (W xf2 x9f x82 x22 xa8 xe3 xf9 x27)) (C x5f None (C x30 None (C x30 (Some (W xaf x9b x3e x70 xe9 x00 x57 x44)) O
(C x31 (Some (W xfc x99 x3e x70 xe9 xff x56 x44)) O
(C x32 (Some (W x15 x9f x3e x70 xe9 x02 x57 x44)) O
O)))
O)
O)
O)))
O)
O)
(C x32 (Some (W xce x14 x56 x2d xc2 x8f xc3 xb0)) (C x5f None (C x30 None (C x30 (Some (W xdb xb9 x90 x83 xae x6b x94 x53)) (C x5f None (C x30 None (C x30 (Some (W x4c x29 x63 xf0 x98 x6a x6b x1d)) O
(C x31 (Some (W xff x2a x63 xf0 x98 x6b x6b x1d)) O
(C x32 (Some (W xb2 x2c x63 xf0 x98 x6c x6b x1d)) O
O)))
O)
O)
(C x31 (Some (W x28 xb8 x90 x83 xae x6a x94 x53)) (C x5f None (C x30 None (C x30 (Some (W x3d x60 x87 xc7 x93 x40 x10 x1a)) O
(C x31 (Some (W x8a x5e x87 xc7 x93 x3f x10 x1a)) O
(C x32 (Some (W xd7 x5c x87 xc7 x93 x3e x10 x1a)) O
O)))
O)
O)
(C x32 (Some (W x41 xbd x90 x83 xae x6d x94 x53)) (C x5f None (C x30 None (C x30 (Some (W xca x2d xd9 x9a xaa x7e x87 x1e)) O
(C x31 (Some (W x7d x2f xd9 x9a xaa x7f x87 x1e)) O
(C x32 (Some (W x64 x2a xd9 x9a xaa x7c x87 x1e)) O
O)))
O)
O)
O)))
O)
O)
(C x33 (Some (W x81 x16 x56 x2d xc2 x90 xc3 xb0)) (C x5f None (C x30 None (C x30 (Some (W x0a xa1 xf8 xcc xb9 xf5 x15 x29)) (C x5f None (C x30 None (C x30 (Some (W x07 xcc xaa x81 x59 xba xbf x7b)) O
(C x31 (Some (W x54 xca xaa x81 x59 xb9 xbf x7b)) O
(C x32 (Some (W x6d xcf xaa x81 x59 xbc xbf x7b)) O
O)))
O)
O)
(C x31 (Some (W xbd xa2 xf8 xcc xb9 xf6 x15 x29)) (C x5f None (C x30 None (C x30 (Some (W x36 xf2 x29 x1e x61 xe4 x6b xd3)) O
(C x31 (Some (W xe9 xf3 x29 x1e x61 xe5 x6b xd3)) O
(C x32 (Some (W xd0 xee x29 x1e x61 xe2 x6b xd3)) O
O)))
O)
O)
(C x32 (Some (W xa4 x9d xf8 xcc xb9 xf3 x15 x29)) (C x5f None (C x30 None (C x30 (Some (W xe9 x79 xd8 x10 x49 xe6 x95 xa4)) O
(C x31 (Some (W x36 x78 xd8 x10 x49 xe5 x95 xa4)) O
(C x32 (Some (W x83 x76 xd8 x10 x49 xe4 x95 xa4)) O
O)))
O)
O)
O)))
O)
O)
(C x34 (Some (W x34 x18 x56 x2d xc2 x91 xc3 xb0)) (C x5f None (C x30 None (C x30 (Some (W x39 xc7 x77 x69 xc1 x1f xc2 x80)) (C x5f None (C x30 None (C x30 (Some (W x42 xe9 x11 xd0 x08 xb9 xb3 xa9)) O
(C x31 (Some (W xf5 xea x11 xd0 x08 xba xb3 xa9)) O
(C x32 (Some (W xdc xe5 x11 xd0 x08 xb7 xb3 xa9)) O
O)))
O)
O)
(C x31 (Some (W x86 xc5 x77 x69 xc1 x1e xc2 x80)) (C x5f None (C x30 None (C x30 (Some (W xb3 x8c x92 x33 x01 x6f x07 x52)) O
(C x31 (Some (W x00 x8b x92 x33 x01 x6e x07 x52)) O
(C x32 (Some (W x19 x90 x92 x33 x01 x71 x07 x52)) O
O)))
O)
O)
(C x32 (Some (W xd3 xc3 x77 x69 xc1 x1d xc2 x80)) (C x5f None (C x30 None (C x30 (Some (W x64 x02 x2a xea xf5 x84 x85 x7c)) O
(C x31 (Some (W x17 x04 x2a xea xf5 x85 x85 x7c)) O
(C x32 (Some (W xca x05 x2a xea xf5 x86 x85 x7c)) O
O)))
O)
O)
O)))
O)
O)
(C x35 (Some (W xe7 x19 x56 x2d xc2 x92 xc3 xb0)) (C x5f None (C x30 None (C x30 (Some (W xe8 xdc xe1 xca xc7 x29 xc9 xac)) (C x5f None (C x30 None (C x30 (Some (W xfd x16 x72 xa2 x01 x5a x7e xc5)) O
(C x31 (Some (W x4a x15 x72 xa2 x01 x59 x7e xc5)) O
(C x32 (Some (W x97 x13 x72 xa2 x01 x58 x7e xc5)) O
O)))
O)
O)
(C x31 (Some (W x9b xde xe1 xca xc7 x2a xc9 xac)) (C x5f None (C x30 None (C x30 (Some (W x0c x8b x4c xb3 x0b x84 x54 x72)) O
(C x31 (Some (W xbf x8c x4c xb3 x0b x85 x54 x72)) O
(C x32 (Some (W x72 x8e x4c xb3 x0b x86 x54 x72)) O
O)))
O)
O)
(C x32 (Some (W x4e xe0 xe1 xca xc7 x2b xc9 xac)) (C x5f None (C x30 None (C x30 (Some (W x5b xa8 x5a x14 x12 x0e xef x9d)) O
(C x31 (Some (W xa8 xa6 x5a x14 x12 x0d xef x9d)) O
(C x32 (Some (W xc1 xab x5a x14 x12 x10 xef x9d)) O
O)))
O)
O)
O)))
O)
O)
(C x36 (Some (W x9a x1b x56 x2d xc2 x93 xc3 xb0)) (C x5f None (C x30 None (C x30 (Some (W x57 x19 x4a xda xd1 xf3 xeb x57)) (C x5f None (C x30 None (C x30 (Some (W x58 x89 xba x0a x03 x3d xd0 x80)) O
(C x31 (Some (W x0b x8b xba x0a x03 x3e xd0 x80)) O
(C x32 (Some (W xbe x8c xba x0a x03 x3f xd0 x80)) O
O)))
O)
O)
(C x31 (Some (W xa4 x17 x4a xda xd1 xf2 xeb x57)) (C x5f None (C x30 None (C x30 (Some (W xe9 xf7 x50 xe3 xfd x72 x28 x7f)) O
(C x31 (Some (W x36 xf6 x50 xe3 xfd x71 x28 x7f)) O
(C x32 (Some (W x83 xf4 x50 xe3 xfd x70 x28 x7f)) O
O)))
O)
O)
(C x32 (Some (W xbd x1c x4a xda xd1 xf5 xeb x57)) (C x5f None (C x30 None (C x30 (Some (W x36 x70 xa2 xf0 x15 x71 xfe xad)) O
(C x31 (Some (W xe9 x71 xa2 xf0 x15 x72 xfe xad)) O
(C x32 (Some (W xd0 x6c xa2 xf0 x15 x6f xfe xad)) O
O)))
O)
O)
O)))
O)
O)
(C x37 (Some (W x4d x1d x56 x2d xc2 x94 xc3 xb0)) (C x5f None (C x30 None (C x30 (Some (W xc6 x94 xc9 x3c xd8 x5d x39 x85)) (C x5f None (C x30 None (C x30 (Some (W xf3 x26 x9a x15 xf8 x6e x43 xb2)) O
(C x31 (Some (W x40 x25 x9a x15 xf8 x6d x43 xb2)) O
(C x32 (Some (W x59 x2a x9a x15 xf8 x70 x43 xb2)) O
O)))
O)
O)
(C x31 (Some (W x79 x96 xc9 x3c xd8 x5e x39 x85)) (C x5f None (C x30 None (C x30 (Some (W x82 x83 x19 xb2 xff xb8 xef x09)) O
(C x31 (Some (W x35 x85 x19 xb2 xff xb9 xef x09)) O
(C x32 (Some (W x1c x80 x19 xb2 xff xb6 xef x09)) O
O)))
O)
O)
(C x32 (Some (W x60 x91 xc9 x3c xd8 x5b x39 x85)) (C x5f None (C x30 None (C x30 (Some (W x95 x03 x24 xa5 xe7 x3a x86 xdb)) O
(C x31 (Some (W xe2 x01 x24 xa5 xe7 x39 x86 xdb)) O
(C x32 (Some (W x2f x00 x24 xa5 xe7 x38 x86 xdb)) O
O)))
O)
O)
O)))
O)
O)
(C x38 (Some (W xd0 x03 x56 x2d xc2 x85 xc3 xb0)) (C x5f None (C x30 None (C x30 (Some (W x05 xc6 x7a x11 x5b xe7 xb6 xf0)) (C x5f None (C x30 None (C x30 (Some (W xfe x45 xd7 xe0 x0e x44 xac x31)) O
(C x31 (Some (W xb1 x47 xd7 xe0 x0e x45 xac x31)) O
(C x32 (Some (W x98 x42 xd7 xe0 x0e x42 xac x31)) O
O)))
O)
O)
(C x31 (Some (W x52 xc4 x7a x11 x5b xe6 xb6 xf0)) (C x5f None (C x30 None (C x30 (Some (W xcf x5e x6f x97 x03 xba x2a x5c)) O
(C x31 (Some (W x1c x5d x6f x97 x03 xb9 x2a x5c)) O
(C x32 (Some (W x35 x62 x6f x97 x03 xbc x2a x5c)) O
O)))
O)
O)
(C x32 (Some (W x9f xc2 x7a x11 x5b xe5 xb6 xf0)) (C x5f None (C x30 None (C x30 (Some (W x20 x49 x05 x36 xfd xaf x23 x30)) O
(C x31 (Some (W xd3 x4a x05 x36 xfd xb0 x23 x30)) O
(C x32 (Some (W x86 x4c x05 x36 xfd xb1 x23 x30)) O
O)))
O)
O)
O)))
O)
O)
(C x39 (Some (W x83 x05 x56 x2d xc2 x86 xc3 xb0)) (C x5f None (C x30 None (C x30 (Some (W x54 x49 xf8 x5b x66 xf1 x7e xc7)) (C x5f None (C x30 None (C x30 (Some (W x19 xcb xb3 xdb xcd xa5 xd3 x7c)) O
(C x31 (Some (W x66 xc9 xb3 xdb xcd xa4 xd3 x7c)) O
(C x32 (Some (W xb3 xc7 xb3 xdb xcd xa3 xd3 x7c)) O
O)))
O)
O)
(C x31 (Some (W x07 x4b xf8 x5b x66 xf2 x7e xc7)) (C x5f None (C x30 None (C x30 (Some (W x48 x20 x8e x26 xd9 xaf x08 x54)) O
(C x31 (Some (W xfb x21 x8e x26 xd9 xb0 x08 x54)) O
(C x32 (Some (W xae x23 x8e x26 xd9 xb1 x08 x54)) O
O)))
O)
O)
(C x32 (Some (W xba x4c xf8 x5b x66 xf3 x7e xc7)) (C x5f None (C x30 None (C x30 (Some (W xb7 xe0 xf7 xc1 xe0 x79 x6e xaa)) O
(C x31 (Some (W x04 xdf xf7 xc1 xe0 x78 x6e xaa)) O
(C x32 (Some (W x1d xe4 xf7 xc1 xe0 x7b x6e xaa)) O
O)))
O)
O)
O)))
O)
O)
O))))))))))
(C x39 None (C x30 (Some (W x71 x51 x58 x2d xc2 x93 xc6 xb0)) (C x5f None (C x30 None (C x30 (Some (W xfa x8f xdd xe2 xa7 x51 x54 xee)) (C x5f None (C x30 None (C x30 (Some (W xf7 xf6 x95 x90 x67 x01 x88 x99)) O
(C x31 (Some (W x44 xf5 x95 x90 x67 x00 x88 x99)) O
(C x32 (Some (W x5d xfa x95 x90 x67 x03 x88 x99)) O
O)))
O)
O)
(C x31 (Some (W xad x91 xdd xe2 xa7 x52 x54 xee)) (C x5f None (C x30 None (C x30 (Some (W x66 xaf xa1 xd9 x72 xeb x9c x6e)) O
(C x31 (Some (W x19 xb1 xa1 xd9 x72 xec x9c x6e)) O
(C x32 (Some (W x00 xac xa1 xd9 x72 xe9 x9c x6e)) O
O)))
O)
O)
(C x32 (Some (W x94 x8c xdd xe2 xa7 x4f x54 xee)) (C x5f None (C x30 None (C x30 (Some (W x59 x8c x50 x92 x59 x2d x68 x15)) O
(C x31 (Some (W xa6 x8a x50 x92 x59 x2c x68 x15)) O
(C x32 (Some (W xf3 x88 x50 x92 x59 x2b x68 x15)) O
O)))
O)
O)
O)))
O)
O)
(C x31 (Some (W xbe x4f x58 x2d xc2 x92 xc6 xb0)) (C x5f None (C x30 None (C x30 (Some (W x4b x7a x73 x81 xa1 x47 x4d xc2)) (C x5f None (C x30 None (C x30 (Some (W x7c xb0 xc3 x82 x6d x20 xab x51)) O
(C x31 (Some (W x2f xb2 xc3 x82 x6d x21 xab x51)) O
(C x32 (Some (W xe2 xb3 xc3 x82 x6d x22 xab x51)) O
O)))
O)
O)
(C x31 (Some (W x98 x78 x73 x81 xa1 x46 x4d xc2)) (C x5f None (C x30 None (C x30 (Some (W x2d xd1 x59 x21 x67 x36 xa4 x25)) O
(C x31 (Some (W x7a xcf x59 x21 x67 x35 xa4 x25)) O
(C x32 (Some (W xc7 xcd x59 x21 x67 x34 xa4 x25)) O
O)))
O)
O)
(C x32 (Some (W xb1 x7d x73 x81 xa1 x49 x4d xc2)) (C x5f None (C x30 None (C x30 (Some (W x3a xf4 xaa x68 x80 xf4 xd8 x7e)) O
(C x31 (Some (W xed xf5 xaa x68 x80 xf5 xd8 x7e)) O
(C x32 (Some (W xd4 xf0 xaa x68 x80 xf2 xd8 x7e)) O
O)))
O)
O)
O)))
O)
O)
(C x32 (Some (W x0b x4e x58 x2d xc2 x91 xc6 xb0)) (C x5f None (C x30 None (C x30 (Some (W x3c xf7 xf4 xe4 x99 x7d xa1 x6a)) (C x5f None (C x30 None (C x30 (Some (W x01 x33 xe0 xc2 xdf xa4 x83 x4c)) O
(C x31 (Some (W x4e x31 xe0 xc2 xdf xa3 x83 x4c)) O
(C x32 (Some (W x9b x2f xe0 xc2 xdf xa2 x83 x4c)) O
O)))
O)
O)
(C x31 (Some (W xef xf8 xf4 xe4 x99 x7e xa1 x6a)) (C x5f None (C x30 None (C x30 (Some (W xf0 xd4 x5e x25 xe6 x8e xd0 x79)) O
(C x31 (Some (W xa3 xd6 x5e x25 xe6 x8f xd0 x79)) O
(C x32 (Some (W x56 xd8 x5e x25 xe6 x90 xd0 x79)) O
O)))
O)
O)
(C x32 (Some (W xa2 xfa xf4 xe4 x99 x7f xa1 x6a)) (C x5f None (C x30 None (C x30 (Some (W x9f x95 xc7 x6e xf1 x98 x52 x4f)) O
(C x31 (Some (W xec x93 xc7 x6e xf1 x97 x52 x4f)) O
(C x32 (Some (W x05 x99 xc7 x6e xf1 x9a x52 x4f)) O
O)))
O)
O)
O)))
O)
O)
(C x33 (Some (W x58 x4c x58 x2d xc2 x90 xc6 xb0)) (C x5f None (C x30 None (C x30 (Some (W xed x6c x8c x9b x8e x93 x1f x95)) (C x5f None (C x30 None (C x30 (Some (W xa6 x4d xb8 x16 x00 xd2 xb3 x19)) O
(C x31 (Some (W x59 x4f xb8 x16 x00 xd3 xb3 x19)) O
(C x32 (Some (W x40 x4a xb8 x16 x00 xd0 xb3 x19)) O
O)))
O)
O)
(C x31 (Some (W x3a x6b x8c x9b x8e x92 x1f x95)) (C x5f None (C x30 None (C x30 (Some (W x37 x40 xab xb5 xf9 xe7 x19 xee)) O
(C x31 (Some (W x84 x3e xab xb5 xf9 xe6 x19 xee)) O
(C x32 (Some (W x9d x43 xab xb5 xf9 xe9 x19 xee)) O
O)))
O)
O)
(C x32 (Some (W x87 x69 x8c x9b x8e x91 x1f x95)) (C x5f None (C x30 None (C x30 (Some (W xc8 x7f x41 x1a xf2 x1d xb4 x97)) O
(C x31 (Some (W x7b x81 x41 x1a xf2 x1e xb4 x97)) O
(C x32 (Some (W x2e x83 x41 x1a xf2 x1f xb4 x97)) O
O)))
O)
O)
O)))
O)
O)
(C x34 (Some (W x3d x58 x58 x2d xc2 x97 xc6 xb0)) (C x5f None (C x30 None (C x30 (Some (W xb6 x2e xad x3a xcb xb9 xf2 xf3)) (C x5f None (C x30 None (C x30 (Some (W xe3 x35 x4a xfe xf8 xe8 xea x0f)) O
(C x31 (Some (W x30 x34 x4a xfe xf8 xe7 xea x0f)) O
(C x32 (Some (W x49 x39 x4a xfe xf8 xea xea x0f)) O
O)))
O)
O)
(C x31 (Some (W x69 x30 xad x3a xcb xba xf2 xf3)) (C x5f None (C x30 None (C x30 (Some (W x32 x0e xc9 x60 xff xf2 x37 x3d)) O
(C x31 (Some (W xe5 x0f xc9 x60 xff xf3 x37 x3d)) O
(C x32 (Some (W xcc x0a xc9 x60 xff xf0 x37 x3d)) O
O)))
O)
O)
(C x32 (Some (W x50 x2b xad x3a xcb xb7 xf2 xf3)) (C x5f None (C x30 None (C x30 (Some (W x85 x28 x63 x18 xe6 x34 xbd xe2)) O
(C x31 (Some (W xd2 x26 x63 x18 xe6 x33 xbd xe2)) O
(C x32 (Some (W x1f x25 x63 x18 xe6 x32 xbd xe2)) O
O)))
O)
O)
O)))
O)
O)
(C x35 (Some (W x8a x56 x58 x2d xc2 x96 xc6 xb0)) (C x5f None (C x30 None (C x30 (Some (W x87 x08 x2e x9e xc3 x8f x46 x9c)) (C x5f None (C x30 None (C x30 (Some (W xc8 xb4 xf8 xb0 x49 x6a x3d xe3)) O
(C x31 (Some (W x7b xb6 xf8 xb0 x49 x6b x3d xe3)) O
(C x32 (Some (W x2e xb8 xf8 xb0 x49 x6c x3d xe3)) O
O)))
O)
O)
(C x31 (Some (W xd4 x06 x2e x9e xc3 x8e x46 x9c)) (C x5f None (C x30 None (C x30 (Some (W x99 x5f x1e x66 x3e x60 x08 x0c)) O
(C x31 (Some (W xe6 x5d x1e x66 x3e x5f x08 x0c)) O
(C x32 (Some (W x33 x5c x1e x66 x3e x5e x08 x0c)) O
O)))
O)
O)
(C x32 (Some (W xed x0b x2e x9e xc3 x91 x46 x9c)) (C x5f None (C x30 None (C x30 (Some (W xa6 x82 x6f xad x57 x1e x3d x65)) O
(C x31 (Some (W x59 x84 x6f xad x57 x1f x3d x65)) O
(C x32 (Some (W x40 x7f x6f xad x57 x1c x3d x65)) O
O)))
O)
O)
O)))
O)
O)
(C x36 (Some (W xd7 x54 x58 x2d xc2 x95 xc6 xb0)) (C x5f None (C x30 None (C x30 (Some (W xd8 x47 xc5 x54 xb8 x85 xc4 xc6)) (C x5f None (C x30 None (C x30 (Some (W x6d x6b x61 x03 x5e x36 xe0 x85)) O
(C x31 (Some (W xba x69 x61 x03 x5e x35 xe0 x85)) O
(C x32 (Some (W x07 x68 x61 x03 x5e x34 xe0 x85)) O
O)))
O)
O)
(C x31 (Some (W x8b x49 xc5 x54 xb8 x86 xc4 xc6)) (C x5f None (C x30 None (C x30 (Some (W xbc xf5 xc9 x4c x69 x20 x62 x5b)) O
(C x31 (Some (W x6f xf7 xc9 x4c x69 x21 x62 x5b)) O
(C x32 (Some (W x22 xf9 xc9 x4c x69 x22 x62 x5b)) O
O)))
O)
O)
(C x32 (Some (W x3e x4b xc5 x54 xb8 x87 xc4 xc6)) (C x5f None (C x30 None (C x30 (Some (W xcb x78 x48 xe9 x70 xea x0d xb3)) O
(C x31 (Some (W x18 x77 x48 xe9 x70 xe9 x0d xb3)) O
(C x32 (Some (W x31 x7c x48 xe9 x70 xec x0d xb3)) O
O)))
O)
O)
O)))
O)
O)
(C x37 (Some (W x24 x53 x58 x2d xc2 x94 xc6 xb0)) (C x5f None (C x30 None (C x30 (Some (W x69 xb6 x5b x2d xb3 xbb x1c xc5)) (C x5f None (C x30 None (C x30 (Some (W x32 x90 x50 x8e x4a x66 xa5 x62)) O
(C x31 (Some (W xe5 x91 x50 x8e x4a x67 xa5 x62)) O
(C x32 (Some (W xcc x8c x50 x8e x4a x64 xa5 x62)) O
O)))
O)
O)
(C x31 (Some (W xb6 xb4 x5b x2d xb3 xba x1c xc5)) (C x5f None (C x30 None (C x30 (Some (W xe3 xb7 xd1 x2b x44 x5c x58 x35)) O
(C x31 (Some (W x30 xb6 xd1 x2b x44 x5b x58 x35)) O
(C x32 (Some (W x49 xbb xd1 x2b x44 x5e x58 x35)) O
O)))
O)
O)
(C x32 (Some (W x03 xb3 x5b x2d xb3 xb9 x1c xc5)) (C x5f None (C x30 None (C x30 (Some (W xd4 x2d x68 x90 x3c xb2 xf2 xde)) O
(C x31 (Some (W x87 x2f x68 x90 x3c xb3 xf2 xde)) O
(C x32 (Some (W x3a x31 x68 x90 x3c xb4 xf2 xde)) O
O)))
O)
O)
O)))
O)
O)
(C x38 (Some (W xd9 x43 x58 x2d xc2 x8b xc6 xb0)) (C x5f None (C x30 None (C x30 (Some (W xa2 x5b x53 xe2 x64 x81 x7a x63)) (C x5f None (C x30 None (C x30 (Some (W x9f x60 x10 xd8 x99 x4c xc9 x03)) O
(C x31 (Some (W xec x5e x10 xd8 x99 x4b xc9 x03)) O
(C x32 (Some (W x05 x64 x10 xd8 x99 x4e xc9 x03)) O
O)))
O)
O)
(C x31 (Some (W x55 x5d x53 xe2 x64 x82 x7a x63)) (C x5f None (C x30 None (C x30 (Some (W x8e xcb x7a xff x9e x96 x71 x05)) O
(C x31 (Some (W x41 xcd x7a xff x9e x97 x71 x05)) O
(C x32 (Some (W x28 xc8 x7a xff x9e x94 x71 x05)) O
O)))
O)
O)
(C x32 (Some (W x3c x58 x53 xe2 x64 x7f x7a x63)) (C x5f None (C x30 None (C x30 (Some (W x01 xfe x28 x2c x88 x58 xfa x00)) O
(C x31 (Some (W x4e xfc x28 x2c x88 x57 xfa x00)) O
(C x32 (Some (W x9b xfa x28 x2c x88 x56 xfa x00)) O
O)))
O)
O)
O)))
O)
O)
(C x39 (Some (W x26 x42 x58 x2d xc2 x8a xc6 xb0)) (C x5f None (C x30 None (C x30 (Some (W x93 xc2 x45 xbb x5f x37 x3f x62)) (C x5f None (C x30 None (C x30 (Some (W x24 x02 xc5 x44 xbf x7f x87 x4c)) O
(C x31 (Some (W xd7 x03 xc5 x44 xbf x80 x87 x4c)) O
(C x32 (Some (W x8a x05 xc5 x44 xbf x81 x87 x4c)) O
O)))
O)
O)
(C x31 (Some (W xe0 xc0 x45 xbb x5f x36 x3f x62)) (C x5f None (C x30 None (C x30 (Some (W x15 xbe xb8 x35 xb5 x35 xd1 xa1)) O
(C x31 (Some (W x62 xbc xb8 x35 xb5 x34 xd1 xa1)) O
(C x32 (Some (W xaf xba xb8 x35 xb5 x33 xd1 xa1)) O
O)))
O)
O)
(C x32 (Some (W xf9 xc5 x45 xbb x5f x39 x3f x62)) (C x5f None (C x30 None (C x30 (Some (W x02 x3e xae x42 xcd xb3 x3a xd0)) O
(C x31 (Some (W xb5 x3f xae x42 xcd xb4 x3a xd0)) O
(C x32 (Some (W x9c x3a xae x42 xcd xb1 x3a xd0)) O
O)))
O)
O)
O)))
O)
O)
O))))))))))
O))))))))))
O)
O)
O)
O)
(C x63 None (C x72 None (C x79 None (C x73 None (C x74 None (C x61 None (C x6c None (C x5f None (C x30 None (C x30 (Some (W xf8 x43 xf4 x42 xc3 xc5 x9e xd2)) (C x5f None (C x30 None (C x30 (Some (W xcd xcb x84 xbc x53 x9e xe6 xf6)) (C x5f None (C x30 None (C x30 (Some (W x46 x24 x9b xa7 xfc x9b x0b xab)) O
(C x31 (Some (W xf9 x25 x9b xa7 xfc x9c x0b xab)) O
(C x32 (Some (W xe0 x20 x9b xa7 xfc x99 x0b xab)) O
O)))
O)
O)
(C x31 (Some (W x1a xca x84 xbc x53 x9d xe6 xf6)) (C x5f None (C x30 None (C x30 (Some (W xd7 xa8 x1b x45 xf6 x31 xbe x7d)) O
(C x31 (Some (W x24 xa7 x1b x45 xf6 x30 xbe x7d)) O
(C x32 (Some (W x3d xac x1b x45 xf6 x33 xbe x7d)) O
O)))
O)
O)
(C x32 (Some (W x67 xc8 x84 xbc x53 x9c xe6 xf6)) (C x5f None (C x30 None (C x30 (Some (W x68 x6c xb3 x35 xec x67 x9b xd2)) O
(C x31 (Some (W x1b x6e xb3 x35 xec x68 x9b xd2)) O
(C x32 (Some (W xce x6f xb3 x35 xec x69 x9b xd2)) O
O)))
O)
O)
O)))
O)
O)
(C x31 (Some (W xab x45 xf4 x42 xc3 xc6 x9e xd2)) (C x5f None (C x30 None (C x30 (Some (W x1c x56 xed x05 x5f x88 x68 xcc)) (C x5f None (C x30 None (C x30 (Some (W x21 x30 xc2 x53 xdc xee xda xdd)) O
(C x31 (Some (W x6e x2e xc2 x53 xdc xed xda xdd)) O
(C x32 (Some (W xbb x2c xc2 x53 xdc xec xda xdd)) O
O)))
O)
O)
(C x31 (Some (W xcf x57 xed x05 x5f x89 x68 xcc)) (C x5f None (C x30 None (C x30 (Some (W x10 x17 xd0 xb4 xe2 x58 x75 x09)) O
(C x31 (Some (W xc3 x18 xd0 xb4 xe2 x59 x75 x09)) O
(C x32 (Some (W x76 x1a xd0 xb4 xe2 x5a x75 x09)) O
O)))
O)
O)
(C x32 (Some (W x82 x59 xed x05 x5f x8a x68 xcc)) (C x5f None (C x30 None (C x30 (Some (W xbf x92 xa9 xff xed xe2 xa9 xe0)) O
(C x31 (Some (W x0c x91 xa9 xff xed xe1 xa9 xe0)) O
(C x32 (Some (W x25 x96 xa9 xff xed xe4 xa9 xe0)) O
O)))
O)
O)
O)))
O)
O)
(C x32 (Some (W x5e x47 xf4 x42 xc3 xc7 x9e xd2)) (C x5f None (C x30 None (C x30 (Some (W x2b xef xfa x2c x64 xd2 xa3 xcd)) (C x5f None (C x30 None (C x30 (Some (W x9c x8e x0d xe7 xb6 xbb x1c x95)) O
(C x31 (Some (W x4f x90 x0d xe7 xb6 xbc x1c x95)) O
(C x32 (Some (W x02 x92 x0d xe7 xb6 xbd x1c x95)) O
O)))
O)
O)
(C x31 (Some (W x78 xed xfa x2c x64 xd1 xa3 xcd)) (C x5f None (C x30 None (C x30 (Some (W x4d x04 xa5 x9d xab xd1 x9a xbf)) O
(C x31 (Some (W x9a x02 xa5 x9d xab xd0 x9a xbf)) O
(C x32 (Some (W xe7 x00 xa5 x9d xab xcf x9a xbf)) O
O)))
O)
O)
(C x32 (Some (W x91 xf2 xfa x2c x64 xd4 xa3 xcd)) (C x5f None (C x30 None (C x30 (Some (W xda x7c xf5 x58 xc7 x0f x8d x6d)) O
(C x31 (Some (W x8d x7e xf5 x58 xc7 x10 x8d x6d)) O
(C x32 (Some (W x74 x79 xf5 x58 xc7 x0d x8d x6d)) O
O)))
O)
O)
O)))
O)
O)
(C x33 (Some (W x11 x49 xf4 x42 xc3 xc8 x9e xd2)) (C x5f None (C x30 None (C x30 (Some (W x5a x44 xd5 x77 x6f xdc xd8 xa4)) (C x5f None (C x30 None (C x30 (Some (W x17 x7c xe9 x18 xdb x64 x5e x74)) O
(C x31 (Some (W x64 x7a xe9 x18 xdb x63 x5e x74)) O
(C x32 (Some (W x7d x7f xe9 x18 xdb x66 x5e x74)) O
O)))
O)
O)
(C x31 (Some (W x0d x46 xd5 x77 x6f xdd xd8 xa4)) (C x5f None (C x30 None (C x30 (Some (W x86 xa2 x67 x63 xe6 xce x26 x4b)) O
(C x31 (Some (W x39 xa4 x67 x63 xe6 xcf x26 x4b)) O
(C x32 (Some (W x20 x9f x67 x63 xe6 xcc x26 x4b)) O
O)))
O)
O)
(C x32 (Some (W xf4 x40 xd5 x77 x6f xda xd8 xa4)) (C x5f None (C x30 None (C x30 (Some (W xf9 x29 x17 xa8 xca x90 x34 x9d)) O
(C x31 (Some (W x46 x28 x17 xa8 xca x8f x34 x9d)) O
(C x32 (Some (W x93 x26 x17 xa8 xca x8e x34 x9d)) O
O)))
O)
O)
O)))
O)
O)
(C x34 (Some (W xc4 x4a xf4 x42 xc3 xc9 x9e xd2)) (C x5f None (C x30 None (C x30 (Some (W xc9 x51 xe2 xd8 x75 xc6 x72 xd0)) (C x5f None (C x30 None (C x30 (Some (W xd2 x3b x4b x62 x66 x7d x50 x52)) O
(C x31 (Some (W x85 x3d x4b x62 x66 x7e x50 x52)) O
(C x32 (Some (W x6c x38 x4b x62 x66 x7b x50 x52)) O
O)))
O)
O)
(C x31 (Some (W x16 x50 xe2 xd8 x75 xc5 x72 xd0)) (C x5f None (C x30 None (C x30 (Some (W x03 xf8 x3d x01 x60 x73 xb6 x26)) O
(C x31 (Some (W x50 xf6 x3d x01 x60 x72 xb6 x26)) O
(C x32 (Some (W x69 xfb x3d x01 x60 x75 xb6 x26)) O
O)))
O)
O)
(C x32 (Some (W x63 x4e xe2 xd8 x75 xc4 x72 xd0)) (C x5f None (C x30 None (C x30 (Some (W xf4 x83 x63 xf0 x55 x49 xe0 x79)) O
(C x31 (Some (W xa7 x85 x63 xf0 x55 x4a xe0 x79)) O
(C x32 (Some (W x5a x87 x63 xf0 x55 x4b xe0 x79)) O
O)))
O)
O)
O)))
O)
O)
(C x35 (Some (W x77 x4c xf4 x42 xc3 xca x9e xd2)) (C x5f None (C x30 None (C x30 (Some (W x38 x12 x4c x74 x7d x90 xd8 x26)) (C x5f None (C x30 None (C x30 (Some (W x0d x66 x8e x60 x1e xeb x83 x14)) O
(C x31 (Some (W x5a x64 x8e x60 x1e xea x83 x14)) O
(C x32 (Some (W xa7 x62 x8e x60 x1e xe9 x83 x14)) O
O)))
O)
O)
(C x31 (Some (W xeb x13 x4c x74 x7d x91 xd8 x26)) (C x5f None (C x30 None (C x30 (Some (W x5c x45 xf8 xc1 x24 xd5 x8a x40)) O
(C x31 (Some (W x0f x47 xf8 xc1 x24 xd6 x8a x40)) O
(C x32 (Some (W xc2 x48 xf8 xc1 x24 xd7 x8a x40)) O
O)))
O)
O)
(C x32 (Some (W x9e x15 x4c x74 x7d x92 xd8 x26)) (C x5f None (C x30 None (C x30 (Some (W x6b x89 x04 xd1 x2e x1f x41 xeb)) O
(C x31 (Some (W xb8 x87 x04 xd1 x2e x1e x41 xeb)) O
(C x32 (Some (W xd1 x8c x04 xd1 x2e x21 x41 xeb)) O
O)))
O)
O)
O)))
O)
O)
(C x36 (Some (W x2a x4e xf4 x42 xc3 xcb x9e xd2)) (C x5f None (C x30 None (C x30 (Some (W x67 x67 x26 xbf x88 x9a x0d xfe)) (C x5f None (C x30 None (C x30 (Some (W x68 xa1 x6a xcc x43 xb4 x24 x1e)) O
(C x31 (Some (W x1b xa3 x6a xcc x43 xb5 x24 x1e)) O
(C x32 (Some (W xce xa4 x6a xcc x43 xb6 x24 x1e)) O
O)))
O)
O)
(C x31 (Some (W xb4 x65 x26 xbf x88 x99 x0d xfe)) (C x5f None (C x30 None (C x30 (Some (W xb9 x8b x00 x6b x3d xaa x1d xf2)) O
(C x31 (Some (W x06 x8a x00 x6b x3d xa9 x1d xf2)) O
(C x32 (Some (W x53 x88 x00 x6b x3d xa8 x1d xf2)) O
O)))
O)
O)
(C x32 (Some (W xcd x6a x26 xbf x88 x9c x0d xfe)) (C x5f None (C x30 None (C x30 (Some (W x46 x59 x52 x3e x54 xe8 x94 xf6)) O
(C x31 (Some (W xf9 x5a x52 x3e x54 xe9 x94 xf6)) O
(C x32 (Some (W xe0 x55 x52 x3e x54 xe6 x94 xf6)) O
O)))
O)
O)
O)))
O)
O)
(C x37 (Some (W xdd x4f xf4 x42 xc3 xcc x9e xd2)) (C x5f None (C x30 None (C x30 (Some (W x16 xca x33 xe6 x8d xc4 x48 xff)) (C x5f None (C x30 None (C x30 (Some (W x03 x76 xb6 xd3 x14 x00 x49 x01)) O
(C x31 (Some (W x50 x74 xb6 xd3 x14 xff x48 x01)) O
(C x32 (Some (W x69 x79 xb6 xd3 x14 x02 x49 x01)) O
O)))
O)
O)
(C x31 (Some (W xc9 xcb x33 xe6 x8d xc5 x48 xff)) (C x5f None (C x30 None (C x30 (Some (W xd2 xb9 xc3 x34 x1b x0a xe3 x2c)) O
(C x31 (Some (W x85 xbb xc3 x34 x1b x0b xe3 x2c)) O
(C x32 (Some (W x6c xb6 xc3 x34 x1b x08 xe3 x2c)) O
O)))
O)
O)
(C x32 (Some (W xb0 xc6 x33 xe6 x8d xc2 x48 xff)) (C x5f None (C x30 None (C x30 (Some (W xa5 xe4 xcd x61 x04 x4c xd8 x28)) O
(C x31 (Some (W xf2 xe2 xcd x61 x04 x4b xd8 x28)) O
(C x32 (Some (W x3f xe1 xcd x61 x04 x4a xd8 x28)) O
O)))
O)
O)
O)))
O)
O)
(C x38 (Some (W x60 x36 xf4 x42 xc3 xbd x9e xd2)) (C x5f None (C x30 None (C x30 (Some (W x95 x3a x56 xf6 x11 x0e xd8 x96)) (C x5f None (C x30 None (C x30 (Some (W xce x6a xa9 x4d x23 xf7 x4b xa7)) O
(C x31 (Some (W x81 x6c xa9 x4d x23 xf8 x4b xa7)) O
(C x32 (Some (W x68 x67 xa9 x4d x23 xf5 x4b xa7)) O
O)))
O)
O)
(C x31 (Some (W xe2 x38 x56 xf6 x11 x0d xd8 x96)) (C x5f None (C x30 None (C x30 (Some (W xdf x54 x40 x3e x19 xad x28 xfc)) O
(C x31 (Some (W x2c x53 x40 x3e x19 xac x28 xfc)) O
(C x32 (Some (W x45 x58 x40 x3e x19 xaf x28 xfc)) O
O)))
O)
O)
(C x32 (Some (W x2f x37 x56 xf6 x11 x0c xd8 x96)) (C x5f None (C x30 None (C x30 (Some (W x30 x3f xd6 xdc x12 xa3 x21 xd0)) O
(C x31 (Some (W xe3 x40 xd6 xdc x12 xa4 x21 xd0)) O
(C x32 (Some (W x96 x42 xd6 xdc x12 xa5 x21 xd0)) O
O)))
O)
O)
O)))
O)
O)
(C x39 (Some (W x13 x38 xf4 x42 xc3 xbe x9e xd2)) (C x5f None (C x30 None (C x30 (Some (W xa4 x7e x62 x05 x1c x58 x8e x41)) (C x5f None (C x30 None (C x30 (Some (W xe9 xc4 xcf xd3 xeb xf6 x37 xf6)) O
(C x31 (Some (W x36 xc3 xcf xd3 xeb xf5 x37 xf6)) O
(C x32 (Some (W x83 xc1 xcf xd3 xeb xf4 x37 xf6)) O
O)))
O)
O)
(C x31 (Some (W x57 x80 x62 x05 x1c x59 x8e x41)) (C x5f None (C x30 None (C x30 (Some (W x58 x56 x39 xfb xf0 xc0 xdf xf7)) O
(C x31 (Some (W x0b x58 x39 xfb xf0 xc1 xdf xf7)) O
(C x32 (Some (W xbe x59 x39 xfb xf0 xc2 xdf xf7)) O
O)))
O)
O)
(C x32 (Some (W x0a x82 x62 x05 x1c x5a x8e x41)) (C x5f None (C x30 None (C x30 (Some (W x07 x17 xa2 x44 xfc xca x61 xcd)) O
(C x31 (Some (W x54 x15 xa2 x44 xfc xc9 x61 xcd)) O
(C x32 (Some (W x6d x1a xa2 x44 xfc xcc x61 xcd)) O
O)))
O)
O)
O)))
O)
O)
O))))))))))
(C x31 None (C x30 (Some (W x81 x5d xf7 x42 xc3 x4b xa2 xd2)) (C x5f None (C x30 None (C x30 (Some (W x0a x0e x25 x55 x8c xfc xd5 xe4)) (C x5f None (C x30 None (C x30 (Some (W x07 x9b x7d xe6 xe0 xbd x41 x2b)) O
(C x31 (Some (W x54 x99 x7d xe6 xe0 xbc x41 x2b)) O
(C x32 (Some (W x6d x9e x7d xe6 xe0 xbf x41 x2b)) O
O)))
O)
O)
(C x31 (Some (W xbd x0f x25 x55 x8c xfd xd5 xe4)) (C x5f None (C x30 None (C x30 (Some (W x36 xc1 xfc x82 xe8 xe7 xed x82)) O
(C x31 (Some (W xe9 xc2 xfc x82 xe8 xe8 xed x82)) O
(C x32 (Some (W xd0 xbd xfc x82 xe8 xe5 xed x82)) O
O)))
O)
O)
(C x32 (Some (W xa4 x0a x25 x55 x8c xfa xd5 xe4)) (C x5f None (C x30 None (C x30 (Some (W xe9 x48 xab x75 xd0 xe9 x17 x54)) O
(C x31 (Some (W x36 x47 xab x75 xd0 xe8 x17 x54)) O
(C x32 (Some (W x83 x45 xab x75 xd0 xe7 x17 x54)) O
O)))
O)
O)
O)))
O)
O)
(C x31 (Some (W xce x5b xf7 x42 xc3 x4a xa2 xd2)) (C x5f None (C x30 None (C x30 (Some (W xdb x26 xbd x0b x81 x72 x54 x0f)) (C x5f None (C x30 None (C x30 (Some (W x4c xf8 x35 x55 x20 x6e xed xcc)) O
(C x31 (Some (W xff xf9 x35 x55 x20 x6f xed xcc)) O
(C x32 (Some (W xb2 xfb x35 x55 x20 x70 xed xcc)) O
O)))
O)
O)
(C x31 (Some (W x28 x25 xbd x0b x81 x71 x54 x0f)) (C x5f None (C x30 None (C x30 (Some (W x3d x2f x5a x2c x1b x44 x92 xc9)) O
(C x31 (Some (W x8a x2d x5a x2c x1b x43 x92 xc9)) O
(C x32 (Some (W xd7 x2b x5a x2c x1b x42 x92 xc9)) O
O)))
O)
O)
(C x32 (Some (W x41 x2a xbd x0b x81 x74 x54 x0f)) (C x5f None (C x30 None (C x30 (Some (W xca xfc xab xff x31 x82 x09 xce)) O
(C x31 (Some (W x7d xfe xab xff x31 x83 x09 xce)) O
(C x32 (Some (W x64 xf9 xab xff x31 x80 x09 xce)) O
O)))
O)
O)
O)))
O)
O)
(C x32 (Some (W x1b x5a xf7 x42 xc3 x49 xa2 xd2)) (C x5f None (C x30 None (C x30 (Some (W x8c x09 xaf xaa x7a xe8 xb9 xe3)) (C x5f None (C x30 None (C x30 (Some (W xd1 x9c x9a xd8 x62 x50 xd9 x71)) O
(C x31 (Some (W x1e x9b x9a xd8 x62 x4f xd9 x71)) O
(C x32 (Some (W x6b x99 x9a xd8 x62 x4e xd9 x71)) O
O)))
O)
O)
(C x31 (Some (W x3f x0b xaf xaa x7a xe9 xb9 xe3)) (C x5f None (C x30 None (C x30 (Some (W x00 x55 xa7 x73 x6a xfa xd1 xc7)) O
(C x31 (Some (W xb3 x56 xa7 x73 x6a xfb xd1 xc7)) O
(C x32 (Some (W x66 x58 xa7 x73 x6a xfc xd1 xc7)) O
O)))
O)
O)
(C x32 (Some (W xf2 x0c xaf xaa x7a xea xb9 xe3)) (C x5f None (C x30 None (C x30 (Some (W xaf x6a x11 xd5 x70 x04 xd9 xf3)) O
(C x31 (Some (W xfc x68 x11 xd5 x70 x03 xd9 xf3)) O
(C x32 (Some (W x15 x6e x11 xd5 x70 x06 xd9 xf3)) O
O)))
O)
O)
O)))
O)
O)
(C x33 (Some (W x68 x58 xf7 x42 xc3 x48 xa2 xd2)) (C x5f None (C x30 None (C x30 (Some (W x7d x95 xd4 x99 x70 xbe xe3 x36)) (C x5f None (C x30 None (C x30 (Some (W xf6 x42 x30 xc7 xfe xb4 xd2 xe2)) O
(C x31 (Some (W xa9 x44 x30 xc7 xfe xb5 xd2 xe2)) O
(C x32 (Some (W x90 x3f x30 xc7 xfe xb2 xd2 xe2)) O
O)))
O)
O)
(C x31 (Some (W xca x93 xd4 x99 x70 xbd xe3 x36)) (C x5f None (C x30 None (C x30 (Some (W xc7 x1c xb1 x2a xf7 x8a x26 x8b)) O
(C x31 (Some (W x14 x1b xb1 x2a xf7 x89 x26 x8b)) O
(C x32 (Some (W x2d x20 xb1 x2a xf7 x8c x26 x8b)) O
O)))
O)
O)
(C x32 (Some (W x17 x92 xd4 x99 x70 xbc xe3 x36)) (C x5f None (C x30 None (C x30 (Some (W x18 x07 x47 xc9 xf0 x80 x1f x5f)) O
(C x31 (Some (W xcb x08 x47 xc9 xf0 x81 x1f x5f)) O
(C x32 (Some (W x7e x0a x47 xc9 xf0 x82 x1f x5f)) O
O)))
O)
O)
O)))
O)
O)
(C x34 (Some (W x4d x64 xf7 x42 xc3 x4f xa2 xd2)) (C x5f None (C x30 None (C x30 (Some (W xc6 x01 xf6 xc4 xaa x64 xf9 x40)) (C x5f None (C x30 None (C x30 (Some (W xf3 xf5 x6c x7a x7f x72 xc5 x61)) O
(C x31 (Some (W x40 xf4 x6c x7a x7f x71 xc5 x61)) O
(C x32 (Some (W x59 xf9 x6c x7a x7f x74 xc5 x61)) O
O)))
O)
O)
(C x31 (Some (W x79 x03 xf6 xc4 xaa x65 xf9 x40)) (C x5f None (C x30 None (C x30 (Some (W x82 x52 xec x16 x87 xbc x71 xb9)) O
(C x31 (Some (W x35 x54 xec x16 x87 xbd x71 xb9)) O
(C x32 (Some (W x1c x4f xec x16 x87 xba x71 xb9)) O
O)))
O)
O)
(C x32 (Some (W x60 xfe xf5 xc4 xaa x62 xf9 x40)) (C x5f None (C x30 None (C x30 (Some (W x95 xd2 xf6 x09 x6f x3e x08 x8b)) O
(C x31 (Some (W xe2 xd0 xf6 x09 x6f x3d x08 x8b)) O
(C x32 (Some (W x2f xcf xf6 x09 x6f x3c x08 x8b)) O
O)))
O)
O)
O)))
O)
O)
(C x35 (Some (W x9a x62 xf7 x42 xc3 x4e xa2 xd2)) (C x5f None (C x30 None (C x30 (Some (W x57 x86 x76 x62 xa4 xfa xab x13)) (C x5f None (C x30 None (C x30 (Some (W x58 x58 x8d x6f x8a x40 x52 x30)) O
(C x31 (Some (W x0b x5a x8d x6f x8a x41 x52 x30)) O
(C x32 (Some (W xbe x5b x8d x6f x8a x42 x52 x30)) O
O)))
O)
O)
(C x31 (Some (W xa4 x84 x76 x62 xa4 xf9 xab x13)) (C x5f None (C x30 None (C x30 (Some (W xe9 xc6 x23 x48 x85 x76 xaa x2e)) O
(C x31 (Some (W x36 xc5 x23 x48 x85 x75 xaa x2e)) O
(C x32 (Some (W x83 xc3 x23 x48 x85 x74 xaa x2e)) O
O)))
O)
O)
(C x32 (Some (W xbd x89 x76 x62 xa4 xfc xab x13)) (C x5f None (C x30 None (C x30 (Some (W x36 x3f x75 x55 x9d x74 x80 x5d)) O
(C x31 (Some (W xe9 x40 x75 x55 x9d x75 x80 x5d)) O
(C x32 (Some (W xd0 x3b x75 x55 x9d x72 x80 x5d)) O
O)))
O)
O)
O)))
O)
O)
(C x36 (Some (W xe7 x60 xf7 x42 xc3 x4d xa2 xd2)) (C x5f None (C x30 None (C x30 (Some (W xe8 x49 x0e x53 x9a x30 x89 x68)) (C x5f None (C x30 None (C x30 (Some (W xfd xe5 x44 x07 x89 x5d x00 x75)) O
(C x31 (Some (W x4a xe4 x44 x07 x89 x5c x00 x75)) O
(C x32 (Some (W x97 xe2 x44 x07 x89 x5b x00 x75)) O
O)))
O)
O)
(C x31 (Some (W x9b x4b x0e x53 x9a x31 x89 x68)) (C x5f None (C x30 None (C x30 (Some (W x0c x5a x1f x18 x93 x87 xd6 x21)) O
(C x31 (Some (W xbf x5b x1f x18 x93 x88 xd6 x21)) O
(C x32 (Some (W x72 x5d x1f x18 x93 x89 xd6 x21)) O
O)))
O)
O)
(C x32 (Some (W x4e x4d x0e x53 x9a x32 x89 x68)) (C x5f None (C x30 None (C x30 (Some (W x5b x77 x2d x79 x99 x11 x71 x4d)) O
(C x31 (Some (W xa8 x75 x2d x79 x99 x10 x71 x4d)) O
(C x32 (Some (W xc1 x7a x2d x79 x99 x13 x71 x4d)) O
O)))
O)
O)
O)))
O)
O)
(C x37 (Some (W x34 x5f xf7 x42 xc3 x4c xa2 xd2)) (C x5f None (C x30 None (C x30 (Some (W x39 x34 xa4 xf1 x93 x26 x82 x3c)) (C x5f None (C x30 None (C x30 (Some (W x42 xb8 xe4 x34 x90 xbc x35 x59)) O
(C x31 (Some (W xf5 xb9 xe4 x34 x90 xbd x35 x59)) O
(C x32 (Some (W xdc xb4 xe4 x34 x90 xba x35 x59)) O
O)))
O)
O)
(C x31 (Some (W x86 x32 xa4 xf1 x93 x25 x82 x3c)) (C x5f None (C x30 None (C x30 (Some (W xb3 x5b x65 x98 x88 x72 x89 x01)) O
(C x31 (Some (W x00 x5a x65 x98 x88 x71 x89 x01)) O
(C x32 (Some (W x19 x5f x65 x98 x88 x74 x89 x01)) O
O)))
O)
O)
(C x32 (Some (W xd3 x30 xa4 xf1 x93 x24 x82 x3c)) (C x5f None (C x30 None (C x30 (Some (W x64 xd1 xfc x4e x7d x88 x07 x2c)) O
(C x31 (Some (W x17 xd3 xfc x4e x7d x89 x07 x2c)) O
(C x32 (Some (W xca xd4 xfc x4e x7d x8a x07 x2c)) O
O)))
O)
O)
O)))
O)
O)
(C x38 (Some (W xe9 x4f xf7 x42 xc3 x43 xa2 xd2)) (C x5f None (C x30 None (C x30 (Some (W xb2 x18 x0d xe2 x46 xac xf1 x06)) (C x5f None (C x30 None (C x30 (Some (W x6f x19 xcb x2e xd7 x44 xa6 x22)) O
(C x31 (Some (W xbc x17 xcb x2e xd7 x43 xa6 x22)) O
(C x32 (Some (W xd5 x1c xcb x2e xd7 x46 xa6 x22)) O
O)))
O)
O)
(C x31 (Some (W x65 x1a x0d xe2 x46 xad xf1 x06)) (C x5f None (C x30 None (C x30 (Some (W x9e xc3 xa6 x91 xdd x4e x60 x50)) O
(C x31 (Some (W x51 xc5 xa6 x91 xdd x4f x60 x50)) O
(C x32 (Some (W x38 xc0 xa6 x91 xdd x4c x60 x50)) O
O)))
O)
O)
(C x32 (Some (W x4c x15 x0d xe2 x46 xaa xf1 x06)) (C x5f None (C x30 None (C x30 (Some (W x91 xa0 x55 x4a xc4 x90 x2b xf7)) O
(C x31 (Some (W xde x9e x55 x4a xc4 x8f x2b xf7)) O
(C x32 (Some (W x2b x9d x55 x4a xc4 x8e x2b xf7)) O
O)))
O)
O)
O)))
O)
O)
(C x39 (Some (W x36 x4e xf7 x42 xc3 x42 xa2 xd2)) (C x5f None (C x30 None (C x30 (Some (W x63 x40 x8e x7f x40 xa2 xa4 xd9)) (C x5f None (C x30 None (C x30 (Some (W xf4 x29 x5a x3d x01 x96 xfb xc3)) O
(C x31 (Some (W xa7 x2b x5a x3d x01 x97 xfb xc3)) O
(C x32 (Some (W x5a x2d x5a x3d x01 x98 xfb xc3)) O
O)))
O)
O)
(C x31 (Some (W xb0 x3e x8e x7f x40 xa1 xa4 xd9)) (C x5f None (C x30 None (C x30 (Some (W xa5 x0c x4c xdc xfa x0b x61 x98)) O
(C x31 (Some (W xf2 x0a x4c xdc xfa x0a x61 x98)) O
(C x32 (Some (W x3f x09 x4c xdc xfa x09 x61 x98)) O
O)))
O)
O)
(C x32 (Some (W xc9 x43 x8e x7f x40 xa4 xa4 xd9)) (C x5f None (C x30 None (C x30 (Some (W xd2 xe1 x41 xaf x11 xca x6b x9c)) O
(C x31 (Some (W x85 xe3 x41 xaf x11 xcb x6b x9c)) O
(C x32 (Some (W x6c xde x41 xaf x11 xc8 x6b x9c)) O
O)))
O)
O)
O)))
O)
O)
O))))))))))
(C x32 None (C x30 (Some (W x8a x9d xf9 x42 xc3 x51 xa5 xd2)) (C x5f None (C x30 None (C x30 (Some (W x87 x75 x5a x26 x96 x96 x06 x58)) (C x5f None (C x30 None (C x30 (Some (W xc8 x83 xcb x15 xd1 x6d xbf x92)) O
(C x31 (Some (W x7b x85 xcb x15 xd1 x6e xbf x92)) O
(C x32 (Some (W x2e x87 xcb x15 xd1 x6f xbf x92)) O
O)))
O)
O)
(C x31 (Some (W xd4 x73 x5a x26 x96 x95 x06 x58)) (C x5f None (C x30 None (C x30 (Some (W x99 x2e xf1 xca xc5 x63 x8a xbb)) O
(C x31 (Some (W xe6 x2c xf1 xca xc5 x62 x8a xbb)) O
(C x32 (Some (W x33 x2b xf1 xca xc5 x61 x8a xbb)) O
O)))
O)
O)
(C x32 (Some (W xed x78 x5a x26 x96 x98 x06 x58)) (C x5f None (C x30 None (C x30 (Some (W xa6 x51 x42 x12 xdf x21 xbf x14)) O
(C x31 (Some (W x59 x53 x42 x12 xdf x22 xbf x14)) O
(C x32 (Some (W x40 x4e x42 x12 xdf x1f xbf x14)) O
O)))
O)
O)
O)))
O)
O)
(C x31 (Some (W x3d x9f xf9 x42 xc3 x52 xa5 xd2)) (C x5f None (C x30 None (C x30 (Some (W xb6 x9b xd9 xc2 x9d xc0 xb2 xaf)) (C x5f None (C x30 None (C x30 (Some (W xe3 x04 x1d x63 x80 xec x6c xbf)) O
(C x31 (Some (W x30 x03 x1d x63 x80 xeb x6c xbf)) O
(C x32 (Some (W x49 x08 x1d x63 x80 xee x6c xbf)) O
O)))
O)
O)
(C x31 (Some (W x69 x9d xd9 xc2 x9d xc1 xb2 xaf)) (C x5f None (C x30 None (C x30 (Some (W x32 xdd x9b xc5 x86 xf6 xb9 xec)) O
(C x31 (Some (W xe5 xde x9b xc5 x86 xf7 xb9 xec)) O
(C x32 (Some (W xcc xd9 x9b xc5 x86 xf4 xb9 xec)) O
O)))
O)
O)
(C x32 (Some (W x50 x98 xd9 xc2 x9d xbe xb2 xaf)) (C x5f None (C x30 None (C x30 (Some (W x85 xf7 x35 x7d x6d x38 x3f x92)) O
(C x31 (Some (W xd2 xf5 x35 x7d x6d x37 x3f x92)) O
(C x32 (Some (W x1f xf4 x35 x7d x6d x36 x3f x92)) O
O)))
O)
O)
O)))
O)
O)
(C x32 (Some (W x24 x9a xf9 x42 xc3 x4f xa5 xd2)) (C x5f None (C x30 None (C x30 (Some (W x69 x23 x88 xb5 x85 xc2 xdc x80)) (C x5f None (C x30 None (C x30 (Some (W x32 x5f x23 xf3 xd1 x69 x27 x12)) O
(C x31 (Some (W xe5 x60 x23 xf3 xd1 x6a x27 x12)) O
(C x32 (Some (W xcc x5b x23 xf3 xd1 x67 x27 x12)) O
O)))
O)
O)
(C x31 (Some (W xb6 x21 x88 xb5 x85 xc1 xdc x80)) (C x5f None (C x30 None (C x30 (Some (W xe3 x86 xa4 x90 xcb x5f xda xe4)) O
(C x31 (Some (W x30 x85 xa4 x90 xcb x5e xda xe4)) O
(C x32 (Some (W x49 x8a xa4 x90 xcb x61 xda xe4)) O
O)))
O)
O)
(C x32 (Some (W x03 x20 x88 xb5 x85 xc0 xdc x80)) (C x5f None (C x30 None (C x30 (Some (W xd4 xfc x3a xf5 xc3 xb5 x74 x8e)) O
(C x31 (Some (W x87 xfe x3a xf5 xc3 xb6 x74 x8e)) O
(C x32 (Some (W x3a x00 x3b xf5 xc3 xb7 x74 x8e)) O
O)))
O)
O)
O)))
O)
O)
(C x33 (Some (W xd7 x9b xf9 x42 xc3 x50 xa5 xd2)) (C x5f None (C x30 None (C x30 (Some (W xd8 xb4 xf1 xdc x8a x8c x84 x82)) (C x5f None (C x30 None (C x30 (Some (W x6d x3a x34 x68 xe5 x39 x62 x35)) O
(C x31 (Some (W xba x38 x34 x68 xe5 x38 x62 x35)) O
(C x32 (Some (W x07 x37 x34 x68 xe5 x37 x62 x35)) O
O)))
O)
O)
(C x31 (Some (W x8b xb6 xf1 xdc x8a x8d x84 x82)) (C x5f None (C x30 None (C x30 (Some (W xbc xc4 x9c xb1 xf0 x23 xe4 x0a)) O
(C x31 (Some (W x6f xc6 x9c xb1 xf0 x24 xe4 x0a)) O
(C x32 (Some (W x22 xc8 x9c xb1 xf0 x25 xe4 x0a)) O
O)))
O)
O)
(C x32 (Some (W x3e xb8 xf1 xdc x8a x8e x84 x82)) (C x5f None (C x30 None (C x30 (Some (W xcb x47 x1b x4e xf8 xed x8f x62)) O
(C x31 (Some (W x18 x46 x1b x4e xf8 xec x8f x62)) O
(C x32 (Some (W x31 x4b x1b x4e xf8 xef x8f x62)) O
O)))
O)
O)
O)))
O)
O)
(C x34 (Some (W xbe x96 xf9 x42 xc3 x4d xa5 xd2)) (C x5f None (C x30 None (C x30 (Some (W x4b xe7 x9f x09 x74 x4e x0d x7e)) (C x5f None (C x30 None (C x30 (Some (W x7c x7f x96 xe7 xf4 x23 x2d x01)) O
(C x31 (Some (W x2f x81 x96 xe7 xf4 x24 x2d x01)) O
(C x32 (Some (W xe2 x82 x96 xe7 xf4 x25 x2d x01)) O
O)))
O)
O)
(C x31 (Some (W x98 xe5 x9f x09 x74 x4d x0d x7e)) (C x5f None (C x30 None (C x30 (Some (W x2d xa0 x2c x86 xee x39 x26 xd5)) O
(C x31 (Some (W x7a x9e x2c x86 xee x38 x26 xd5)) O
(C x32 (Some (W xc7 x9c x2c x86 xee x37 x26 xd5)) O
O)))
O)
O)
(C x32 (Some (W xb1 xea x9f x09 x74 x50 x0d x7e)) (C x5f None (C x30 None (C x30 (Some (W x3a xc3 x7d xcd x07 xf8 x5a x2e)) O
(C x31 (Some (W xed xc4 x7d xcd x07 xf9 x5a x2e)) O
(C x32 (Some (W xd4 xbf x7d xcd x07 xf6 x5a x2e)) O
O)))
O)
O)
O)))
O)
O)
(C x35 (Some (W x71 x98 xf9 x42 xc3 x4e xa5 xd2)) (C x5f None (C x30 None (C x30 (Some (W xfa xfc x09 x6b x7a x58 x14 xaa)) (C x5f None (C x30 None (C x30 (Some (W xf7 xc5 x68 xf5 xee x04 x0a x49)) O
(C x31 (Some (W x44 xc4 x68 xf5 xee x03 x0a x49)) O
(C x32 (Some (W x5d xc9 x68 xf5 xee x06 x0a x49)) O
O)))
O)
O)
(C x31 (Some (W xad xfe x09 x6b x7a x59 x14 xaa)) (C x5f None (C x30 None (C x30 (Some (W x66 x7e x74 x3e xfa xee x1e x1e)) O
(C x31 (Some (W x19 x80 x74 x3e xfa xef x1e x1e)) O
(C x32 (Some (W x00 x7b x74 x3e xfa xec x1e x1e)) O
O)))
O)
O)
(C x32 (Some (W x94 xf9 x09 x6b x7a x56 x14 xaa)) (C x5f None (C x30 None (C x30 (Some (W x59 x5b x23 xf7 xe0 x30 xea xc4)) O
(C x31 (Some (W xa6 x59 x23 xf7 xe0 x2f xea xc4)) O
(C x32 (Some (W xf3 x57 x23 xf7 xe0 x2e xea xc4)) O
O)))
O)
O)
O)))
O)
O)
(C x36 (Some (W x58 x93 xf9 x42 xc3 x4b xa5 xd2)) (C x5f None (C x30 None (C x30 (Some (W xed xd9 xb8 x23 x61 x9a xdf x50)) (C x5f None (C x30 None (C x30 (Some (W xa6 x1c x8b x7b x87 xd5 x35 xc9)) O
(C x31 (Some (W x59 x1e x8b x7b x87 xd6 x35 xc9)) O
(C x32 (Some (W x40 x19 x8b x7b x87 xd3 x35 xc9)) O
O)))
O)
O)
(C x31 (Some (W x3a xd8 xb8 x23 x61 x99 xdf x50)) (C x5f None (C x30 None (C x30 (Some (W x37 x0f x7e x1a x81 xeb x9b x9d)) O
(C x31 (Some (W x84 x0d x7e x1a x81 xea x9b x9d)) O
(C x32 (Some (W x9d x12 x7e x1a x81 xed x9b x9d)) O
O)))
O)
O)
(C x32 (Some (W x87 xd6 xb8 x23 x61 x98 xdf x50)) (C x5f None (C x30 None (C x30 (Some (W xc8 x4e x14 x7f x79 x21 x36 x47)) O
(C x31 (Some (W x7b x50 x14 x7f x79 x22 x36 x47)) O
(C x32 (Some (W x2e x52 x14 x7f x79 x23 x36 x47)) O
O)))
O)
O)
O)))
O)
O)
(C x37 (Some (W x0b x95 xf9 x42 xc3 x4c xa5 xd2)) (C x5f None (C x30 None (C x30 (Some (W x3c x64 x21 x6d x6c x84 x61 x26)) (C x5f None (C x30 None (C x30 (Some (W x01 x02 xb3 x27 x67 xa8 x05 xfc)) O
(C x31 (Some (W x4e x00 xb3 x27 x67 xa7 x05 xfc)) O
(C x32 (Some (W x9b xfe xb2 x27 x67 xa6 x05 xfc)) O
O)))
O)
O)
(C x31 (Some (W xef x65 x21 x6d x6c x85 x61 x26)) (C x5f None (C x30 None (C x30 (Some (W xf0 xa3 x31 x8a x6d x92 x52 x29)) O
(C x31 (Some (W xa3 xa5 x31 x8a x6d x93 x52 x29)) O
(C x32 (Some (W x56 xa7 x31 x8a x6d x94 x52 x29)) O
O)))
O)
O)
(C x32 (Some (W xa2 x67 x21 x6d x6c x86 x61 x26)) (C x5f None (C x30 None (C x30 (Some (W x9f x64 x9a xd3 x78 x9c xd4 xfe)) O
(C x31 (Some (W xec x62 x9a xd3 x78 x9b xd4 xfe)) O
(C x32 (Some (W x05 x68 x9a xd3 x78 x9e xd4 xfe)) O
O)))
O)
O)
O)))
O)
O)
(C x38 (Some (W xf2 x8f xf9 x42 xc3 x49 xa5 xd2)) (C x5f None (C x30 None (C x30 (Some (W xaf xeb xd0 xb1 x50 x46 x6f x78)) (C x5f None (C x30 None (C x30 (Some (W xb0 xd0 x63 xb6 x88 x5f xb2 x32)) O
(C x31 (Some (W x63 xd2 x63 xb6 x88 x60 xb2 x32)) O
(C x32 (Some (W x16 xd4 x63 xb6 x88 x61 xb2 x32)) O
O)))
O)
O)
(C x31 (Some (W xfc xe9 xd0 xb1 x50 x45 x6f x78)) (C x5f None (C x30 None (C x30 (Some (W xc1 x83 xe6 x6b x7d x75 xea x5b)) O
(C x31 (Some (W x0e x82 xe6 x6b x7d x74 xea x5b)) O
(C x32 (Some (W x5b x80 xe6 x6b x7d x73 xea x5b)) O
O)))
O)
O)
(C x32 (Some (W x15 xef xd0 xb1 x50 x48 x6f x78)) (C x5f None (C x30 None (C x30 (Some (W x4e xfc x36 x27 x99 xb3 xdc x09)) O
(C x31 (Some (W x01 xfe x36 x27 x99 xb4 xdc x09)) O
(C x32 (Some (W xe8 xf8 x36 x27 x99 xb1 xdc x09)) O
O)))
O)
O)
O)))
O)
O)
(C x39 (Some (W xa5 x91 xf9 x42 xc3 x4a xa5 xd2)) (C x5f None (C x30 None (C x30 (Some (W xde x40 xab xfc x5b x50 xa4 x4f)) (C x5f None (C x30 None (C x30 (Some (W xab x97 x40 xe8 xac x88 xf4 x11)) O
(C x31 (Some (W xf8 x95 x40 xe8 xac x87 xf4 x11)) O
(C x32 (Some (W x11 x9b x40 xe8 xac x8a xf4 x11)) O
O)))
O)
O)
(C x31 (Some (W x91 x42 xab xfc x5b x51 xa4 x4f)) (C x5f None (C x30 None (C x30 (Some (W xda xec x1a x33 xb8 x92 x29 xe9)) O
(C x31 (Some (W x8d xee x1a x33 xb8 x93 x29 xe9)) O
(C x32 (Some (W x74 xe9 x1a x33 xb8 x90 x29 xe9)) O
O)))
O)
O)
(C x32 (Some (W x78 x3d xab xfc x5b x4e xa4 x4f)) (C x5f None (C x30 None (C x30 (Some (W x4d x74 xca x77 x9c x54 x37 x3b)) O
(C x31 (Some (W x9a x72 xca x77 x9c x53 x37 x3b)) O
(C x32 (Some (W xe7 x70 xca x77 x9c x52 x37 x3b)) O
O)))
O)
O)
O)))
O)
O)
O))))))))))
(C x33 None (C x30 (Some (W xb3 x80 xfc x42 xc3 xb7 xa8 xd2)) (C x5f None (C x30 None (C x30 (Some (W x84 xf8 x12 x4c xc0 x73 xa4 xc9)) (C x5f None (C x30 None (C x30 (Some (W x89 x36 x04 x9d xef xd6 x54 x8d)) O
(C x31 (Some (W xd6 x34 x04 x9d xef xd5 x54 x8d)) O
(C x32 (Some (W x23 x33 x04 x9d xef xd4 x54 x8d)) O
O)))
O)
O)
(C x31 (Some (W x37 xfa x12 x4c xc0 x74 xa4 xc9)) (C x5f None (C x30 None (C x30 (Some (W xf8 xf6 x6d x38 xf7 xa0 xba xe3)) O
(C x31 (Some (W xab xf8 x6d x38 xf7 xa1 xba xe3)) O
(C x32 (Some (W x5e xfa x6d x38 xf7 xa2 xba xe3)) O
O)))
O)
O)
(C x32 (Some (W xea xfb x12 x4c xc0 x75 xa4 xc9)) (C x5f None (C x30 None (C x30 (Some (W x27 xa1 x49 x9b xfd xaa x74 x11)) O
(C x31 (Some (W x74 x9f x49 x9b xfd xa9 x74 x11)) O
(C x32 (Some (W x8d xa4 x49 x9b xfd xac x74 x11)) O
O)))
O)
O)
O)))
O)
O)
(C x31 (Some (W x00 x7f xfc x42 xc3 xb6 xa8 xd2)) (C x5f None (C x30 None (C x30 (Some (W x75 x75 x94 xaf xb8 xa9 xf8 x71)) (C x5f None (C x30 None (C x30 (Some (W x6e x06 x7e xf5 x5c xdb x1e xdf)) O
(C x31 (Some (W x21 x08 x7e xf5 x5c xdc x1e xdf)) O
(C x32 (Some (W x08 x03 x7e xf5 x5c xd9 x1e xdf)) O
O)))
O)
O)
(C x31 (Some (W xc2 x73 x94 xaf xb8 xa8 xf8 x71)) (C x5f None (C x30 None (C x30 (Some (W xff x45 x14 x5a x55 x11 xb9 x88)) O
(C x31 (Some (W x4c x44 x14 x5a x55 x10 xb9 x88)) O
(C x32 (Some (W x65 x49 x14 x5a x55 x13 xb9 x88)) O
O)))
O)
O)
(C x32 (Some (W x0f x72 x94 xaf xb8 xa7 xf8 x71)) (C x5f None (C x30 None (C x30 (Some (W x50 x75 x39 xf7 x4e x87 xff x5a)) O
(C x31 (Some (W x03 x77 x39 xf7 x4e x88 xff x5a)) O
(C x32 (Some (W xb6 x78 x39 xf7 x4e x89 xff x5a)) O
O)))
O)
O)
O)))
O)
O)
(C x32 (Some (W x19 x84 xfc x42 xc3 xb9 xa8 xd2)) (C x5f None (C x30 None (C x30 (Some (W xe2 x1b x89 xbc xd0 xa7 x61 xa0)) (C x5f None (C x30 None (C x30 (Some (W xdf xf5 x77 xf4 xa4 xf6 xea xcd)) O
(C x31 (Some (W x2c xf4 x77 xf4 xa4 xf5 xea xcd)) O
(C x32 (Some (W x45 xf9 x77 xf4 xa4 xf8 xea xcd)) O
O)))
O)
O)
(C x31 (Some (W x95 x1d x89 xbc xd0 xa8 x61 xa0)) (C x5f None (C x30 None (C x30 (Some (W xce x0b xe1 x03 xaf x40 x0e x79)) O
(C x31 (Some (W x81 x0d xe1 x03 xaf x41 x0e x79)) O
(C x32 (Some (W x68 x08 xe1 x03 xaf x3e x0e x79)) O
O)))
O)
O)
(C x32 (Some (W x7c x18 x89 xbc xd0 xa5 x61 xa0)) (C x5f None (C x30 None (C x30 (Some (W x41 x93 x90 x48 x93 x02 x1c xcb)) O
(C x31 (Some (W x8e x91 x90 x48 x93 x01 x1c xcb)) O
(C x32 (Some (W xdb x8f x90 x48 x93 x00 x1c xcb)) O
O)))
O)
O)
O)))
O)
O)
(C x33 (Some (W x66 x82 xfc x42 xc3 xb8 xa8 xd2)) (C x5f None (C x30 None (C x30 (Some (W xd3 xd7 x7c xad xc6 x5d xab xf5)) (C x5f None (C x30 None (C x30 (Some (W x64 x5e x66 x6f xdc xf6 x44 x80)) O
(C x31 (Some (W x17 x60 x66 x6f xdc xf7 x44 x80)) O
(C x32 (Some (W xca x61 x66 x6f xdc xf8 x44 x80)) O
O)))
O)
O)
(C x31 (Some (W x20 xd6 x7c xad xc6 x5c xab xf5)) (C x5f None (C x30 None (C x30 (Some (W x55 xc5 x58 x48 xd7 xac x09 x7f)) O
(C x31 (Some (W xa2 xc3 x58 x48 xd7 xab x09 x7f)) O
(C x32 (Some (W xef xc1 x58 x48 xd7 xaa x09 x7f)) O
O)))
O)
O)
(C x32 (Some (W x39 xdb x7c xad xc6 x5f xab xf5)) (C x5f None (C x30 None (C x30 (Some (W x42 x45 x4e x55 xef x2a x73 xad)) O
(C x31 (Some (W xf5 x46 x4e x55 xef x2b x73 xad)) O
(C x32 (Some (W xdc x41 x4e x55 xef x28 x73 xad)) O
O)))
O)
O)
O)))
O)
O)
(C x34 (Some (W x7f x87 xfc x42 xc3 xbb xa8 xd2)) (C x5f None (C x30 None (C x30 (Some (W x40 x7e x71 xba xde x5b x14 x24)) (C x5f None (C x30 None (C x30 (Some (W xb5 x1f xbd x6e x24 x12 x7e x6f)) O
(C x31 (Some (W x02 x1e xbd x6e x24 x11 x7e x6f)) O
(C x32 (Some (W x4f x1c xbd x6e x24 x10 x7e x6f)) O
O)))
O)
O)
(C x31 (Some (W xf3 x7f x71 xba xde x5c x14 x24)) (C x5f None (C x30 None (C x30 (Some (W xc4 xa2 x3b x0b x2c xdc x29 xc7)) O
(C x31 (Some (W x77 xa4 x3b x0b x2c xdd x29 xc7)) O
(C x32 (Some (W x2a xa6 x3b x0b x2c xde x29 xc7)) O
O)))
O)
O)
(C x32 (Some (W xa6 x81 x71 xba xde x5d x14 x24)) (C x5f None (C x30 None (C x30 (Some (W x13 x2d xa4 x54 x37 xc6 xab x9c)) O
(C x31 (Some (W x60 x2b xa4 x54 x37 xc5 xab x9c)) O
(C x32 (Some (W x79 x30 xa4 x54 x37 xc8 xab x9c)) O
O)))
O)
O)
O)))
O)
O)
(C x35 (Some (W xcc x85 xfc x42 xc3 xba xa8 xd2)) (C x5f None (C x30 None (C x30 (Some (W x11 xc6 x64 x1f xd7 xb1 x1b xce)) (C x5f None (C x30 None (C x30 (Some (W x5a xc3 xfe x1d xe0 xec xf6 xc1)) O
(C x31 (Some (W x0d xc5 xfe x1d xe0 xed xf6 xc1)) O
(C x32 (Some (W xf4 xbf xfe x1d xe0 xea xf6 xc1)) O
O)))
O)
O)
(C x31 (Some (W x5e xc4 x64 x1f xd7 xb0 x1b xce)) (C x5f None (C x30 None (C x30 (Some (W x2b x6e x24 xd3 xd4 xe2 xc1 xea)) O
(C x31 (Some (W x78 x6c x24 xd3 xd4 xe1 xc1 xea)) O
(C x32 (Some (W x91 x71 x24 xd3 xd4 xe4 xc1 xea)) O
O)))
O)
O)
(C x32 (Some (W xab xc2 x64 x1f xd7 xaf x1b xce)) (C x5f None (C x30 None (C x30 (Some (W x1c xd5 x16 xac xcf x98 x86 xe9)) O
(C x31 (Some (W xcf xd6 x16 xac xcf x99 x86 xe9)) O
(C x32 (Some (W x82 xd8 x16 xac xcf x9a x86 xe9)) O
O)))
O)
O)
O)))
O)
O)
(C x36 (Some (W xe5 x8a xfc x42 xc3 xbd xa8 xd2)) (C x5f None (C x30 None (C x30 (Some (W x1e xe9 xb5 x66 xf0 x6f x50 x27)) (C x5f None (C x30 None (C x30 (Some (W xeb xcf x0d x96 x47 xfc xaa x3f)) O
(C x31 (Some (W x38 xce x0d x96 x47 xfb xaa x3f)) O
(C x32 (Some (W x51 xd3 x0d x96 x47 xfe xaa x3f)) O
O)))
O)
O)
(C x31 (Some (W xd1 xea xb5 x66 xf0 x70 x50 x27)) (C x5f None (C x30 None (C x30 (Some (W x1a x7a xe9 xf8 x4d x06 x65 x6d)) O
(C x31 (Some (W xcd x7b xe9 xf8 x4d x07 x65 x6d)) O
(C x32 (Some (W xb4 x76 xe9 xf8 x4d x04 x65 x6d)) O
O)))
O)
O)
(C x32 (Some (W xb8 xe5 xb5 x66 xf0 x6d x50 x27)) (C x5f None (C x30 None (C x30 (Some (W x8d xac x97 x25 x37 xc8 xed x68)) O
(C x31 (Some (W xda xaa x97 x25 x37 xc7 xed x68)) O
(C x32 (Some (W x27 xa9 x97 x25 x37 xc6 xed x68)) O
O)))
O)
O)
O)))
O)
O)
(C x37 (Some (W x32 x89 xfc x42 xc3 xbc xa8 xd2)) (C x5f None (C x30 None (C x30 (Some (W xef x3e xda x03 xea x65 x96 xf9)) (C x5f None (C x30 None (C x30 (Some (W xf0 x96 xf8 x6d x0c x06 x52 x4d)) O
(C x31 (Some (W xa3 x98 xf8 x6d x0c x07 x52 x4d)) O
(C x32 (Some (W x56 x9a xf8 x6d x0c x08 x52 x4d)) O
O)))
O)
O)
(C x31 (Some (W x3c x3d xda x03 xea x64 x96 xf9)) (C x5f None (C x30 None (C x30 (Some (W x01 xf5 x79 x0b x06 x1c x05 x20)) O
(C x31 (Some (W x4e xf3 x79 x0b x06 x1b x05 x20)) O
(C x32 (Some (W x9b xf1 x79 x0b x06 x1a x05 x20)) O
O)))
O)
O)
(C x32 (Some (W x55 x42 xda x03 xea x67 x96 xf9)) (C x5f None (C x30 None (C x30 (Some (W x8e xc2 xcb xde x1c x5a x7c x24)) O
(C x31 (Some (W x41 xc4 xcb xde x1c x5b x7c x24)) O
(C x32 (Some (W x28 xbf xcb xde x1c x58 x7c x24)) O
O)))
O)
O)
O)))
O)
O)
(C x38 (Some (W x4b x8e xfc x42 xc3 xbf xa8 xd2)) (C x5f None (C x30 None (C x30 (Some (W x7c x0c x2c xd7 x00 xa4 x0d xfe)) (C x5f None (C x30 None (C x30 (Some (W x41 x8f x81 xed xfc x1b x41 x80)) O
(C x31 (Some (W x8e x8d x81 xed xfc x1a x41 x80)) O
(C x32 (Some (W xdb x8b x81 xed xfc x19 x41 x80)) O
O)))
O)
O)
(C x31 (Some (W x2f x0e x2c xd7 x00 xa5 x0d xfe)) (C x5f None (C x30 None (C x30 (Some (W x30 xdc xfe x37 x08 x06 x09 x57)) O
(C x31 (Some (W xe3 xdd xfe x37 x08 x07 x09 x57)) O
(C x32 (Some (W x96 xdf xfe x37 x08 x08 x09 x57)) O
O)))
O)
O)
(C x32 (Some (W xe2 x0f x2c xd7 x00 xa6 x0d xfe)) (C x5f None (C x30 None (C x30 (Some (W xdf xf1 x68 x99 x0e x10 x10 x83)) O
(C x31 (Some (W x2c xf0 x68 x99 x0e x0f x10 x83)) O
(C x32 (Some (W x45 xf5 x68 x99 x0e x12 x10 x83)) O
O)))
O)
O)
O)))
O)
O)
(C x39 (Some (W x98 x8c xfc x42 xc3 xbe xa8 xd2)) (C x5f None (C x30 None (C x30 (Some (W x2d x2d xc2 x75 xfa xb9 x06 xd2)) (C x5f None (C x30 None (C x30 (Some (W xe6 x8d x1e x1b x10 x7c x50 x8d)) O
(C x31 (Some (W x99 x8f x1e x1b x10 x7d x50 x8d)) O
(C x32 (Some (W x80 x8a x1e x1b x10 x7a x50 x8d)) O
O)))
O)
O)
(C x31 (Some (W x7a x2b xc2 x75 xfa xb8 x06 xd2)) (C x5f None (C x30 None (C x30 (Some (W x77 xd5 x12 xd2 x04 x92 x3b xb8)) O
(C x31 (Some (W xc4 xd3 x12 xd2 x04 x91 x3b xb8)) O
(C x32 (Some (W xdd xd8 x12 xd2 x04 x94 x3b xb8)) O
O)))
O)
O)
(C x32 (Some (W xc7 x29 xc2 x75 xfa xb7 x06 xd2)) (C x5f None (C x30 None (C x30 (Some (W x08 x15 xa9 x36 xfd xc7 xd5 x61)) O
(C x31 (Some (W xbb x16 xa9 x36 xfd xc8 xd5 x61)) O
(C x32 (Some (W x6e x18 xa9 x36 xfd xc9 xd5 x61)) O
O)))
O)
O)
O)))
O)
O)
O))))))))))
(C x34 None (C x30 (Some (W x3c x9a xff x42 xc3 x3d xac xd2)) (C x5f None (C x30 None (C x30 (Some (W x01 x14 xb5 x36 xf5 x11 x78 x38)) (C x5f None (C x30 None (C x30 (Some (W x8a xf5 x70 x0d xca x56 x58 x45)) O
(C x31 (Some (W x3d xf7 x70 x0d xca x57 x58 x45)) O
(C x32 (Some (W x24 xf2 x70 x0d xca x54 x58 x45)) O
O)))
O)
O)
(C x31 (Some (W x4e x12 xb5 x36 xf5 x10 x78 x38)) (C x5f None (C x30 None (C x30 (Some (W x5b x0e x09 xc4 xbe xcc xd6 x6f)) O
(C x31 (Some (W xa8 x0c x09 xc4 xbe xcb xd6 x6f)) O
(C x32 (Some (W xc1 x11 x09 xc4 xbe xce xd6 x6f)) O
O)))
O)
O)
(C x32 (Some (W x9b x10 xb5 x36 xf5 x0f x78 x38)) (C x5f None (C x30 None (C x30 (Some (W x0c xf1 xfa x62 xb8 x42 x3c x44)) O
(C x31 (Some (W xbf xf2 xfa x62 xb8 x43 x3c x44)) O
(C x32 (Some (W x72 xf4 xfa x62 xb8 x44 x3c x44)) O
O)))
O)
O)
O)))
O)
O)
(C x31 (Some (W xef x9b xff x42 xc3 x3e xac xd2)) (C x5f None (C x30 None (C x30 (Some (W xf0 xb5 x33 x99 xfb xfb xc4 x65)) (C x5f None (C x30 None (C x30 (Some (W xe5 xde xe4 x50 x90 x44 x0c xfc)) O
(C x31 (Some (W x32 xdd xe4 x50 x90 x43 x0c xfc)) O
(C x32 (Some (W x7f xdb xe4 x50 x90 x42 x0c xfc)) O
O)))
O)
O)
(C x31 (Some (W xa3 xb7 x33 x99 xfb xfc xc4 x65)) (C x5f None (C x30 None (C x30 (Some (W x34 xa7 xf1 x99 x9b xce x21 xd1)) O
(C x31 (Some (W xe7 xa8 xf1 x99 x9b xcf x21 xd1)) O
(C x32 (Some (W x9a xaa xf1 x99 x9b xd0 x21 xd1)) O
O)))
O)
O)
(C x32 (Some (W x56 xb9 x33 x99 xfb xfd xc4 x65)) (C x5f None (C x30 None (C x30 (Some (W x43 x70 xcd xc2 xa0 xf8 x7c xd4)) O
(C x31 (Some (W x90 x6e xcd xc2 xa0 xf7 x7c xd4)) O
(C x32 (Some (W xa9 x73 xcd xc2 xa0 xfa x7c xd4)) O
O)))
O)
O)
O)))
O)
O)
(C x32 (Some (W xa2 x9d xff x42 xc3 x3f xac xd2)) (C x5f None (C x30 None (C x30 (Some (W x9f x76 x9c xe2 x06 x06 x47 x3b)) (C x5f None (C x30 None (C x30 (Some (W x20 x85 x20 xc4 x7a x38 x9e x2e)) O
(C x31 (Some (W xd3 x86 x20 xc4 x7a x39 x9e x2e)) O
(C x32 (Some (W x86 x88 x20 xc4 x7a x3a x9e x2e)) O
O)))
O)
O)
(C x31 (Some (W xec x74 x9c xe2 x06 x05 x47 x3b)) (C x5f None (C x30 None (C x30 (Some (W x71 x09 xa2 xb3 x70 x8e x34 x82)) O
(C x31 (Some (W xbe x07 xa2 xb3 x70 x8d x34 x82)) O
(C x32 (Some (W x0b x06 xa2 xb3 x70 x8c x34 x82)) O
O)))
O)
O)
(C x32 (Some (W x05 x7a x9c xe2 x06 x08 x47 x3b)) (C x5f None (C x30 None (C x30 (Some (W xfe x81 xf2 x6e x8c xcc x26 x30)) O
(C x31 (Some (W xb1 x83 xf2 x6e x8c xcd x26 x30)) O
(C x32 (Some (W x98 x7e xf2 x6e x8c xca x26 x30)) O
O)))
O)
O)
O)))
O)
O)
(C x33 (Some (W x55 x9f xff x42 xc3 x40 xac xd2)) (C x5f None (C x30 None (C x30 (Some (W x8e xe1 x06 x0a x0c x50 xef x3c)) (C x5f None (C x30 None (C x30 (Some (W x9b x53 x0f x8e xba xcc x8d x79)) O
(C x31 (Some (W xe8 x51 x0f x8e xba xcb x8d x79)) O
(C x32 (Some (W x01 x57 x0f x8e xba xce x8d x79)) O
O)))
O)
O)
(C x31 (Some (W x41 xe3 x06 x0a x0c x51 xef x3c)) (C x5f None (C x30 None (C x30 (Some (W xca x8f x78 xef xc0 x56 x94 xa5)) O
(C x31 (Some (W x7d x91 x78 xef xc0 x57 x94 xa5)) O
(C x32 (Some (W x64 x8c x78 xef xc0 x54 x94 xa5)) O
O)))
O)
O)
(C x32 (Some (W x28 xde x06 x0a x0c x4e xef x3c)) (C x5f None (C x30 None (C x30 (Some (W x3d xc2 x26 x1c xaa x18 x1d xa1)) O
(C x31 (Some (W x8a xc0 x26 x1c xaa x17 x1d xa1)) O
(C x32 (Some (W xd7 xbe x26 x1c xaa x16 x1d xa1)) O
O)))
O)
O)
O)))
O)
O)
(C x34 (Some (W x70 x93 xff x42 xc3 x39 xac xd2)) (C x5f None (C x30 None (C x30 (Some (W x65 xd3 x56 xe0 xd1 x89 x8c x34)) (C x5f None (C x30 None (C x30 (Some (W x9e x56 x73 x81 x6c x23 xeb x27)) O
(C x31 (Some (W x51 x58 x73 x81 x6c x24 xeb x27)) O
(C x32 (Some (W x38 x53 x73 x81 x6c x21 xeb x27)) O
O)))
O)
O)
(C x31 (Some (W xb2 xd1 x56 xe0 xd1 x88 x8c x34)) (C x5f None (C x30 None (C x30 (Some (W x6f xac x97 x1e x66 x19 x31 xfa)) O
(C x31 (Some (W xbc xaa x97 x1e x66 x18 x31 xfa)) O
(C x32 (Some (W xd5 xaf x97 x1e x66 x1b x31 xfa)) O
O)))
O)
O)
(C x32 (Some (W xff xcf x56 xe0 xd1 x87 x8c x34)) (C x5f None (C x30 None (C x30 (Some (W xc0 xeb x2e xd5 x5a x0f xaf x24)) O
(C x31 (Some (W x73 xed x2e xd5 x5a x10 xaf x24)) O
(C x32 (Some (W x26 xef x2e xd5 x5a x11 xaf x24)) O
O)))
O)
O)
O)))
O)
O)
(C x35 (Some (W x23 x95 xff x42 xc3 x3a xac xd2)) (C x5f None (C x30 None (C x30 (Some (W xb4 x9b x63 x29 xdd x13 xa2 x09)) (C x5f None (C x30 None (C x30 (Some (W xb9 x9d x77 xd7 x1c xf4 x71 xc2)) O
(C x31 (Some (W x06 x9c x77 xd7 x1c xf3 x71 xc2)) O
(C x32 (Some (W x53 x9a x77 xd7 x1c xf2 x71 xc2)) O
O)))
O)
O)
(C x31 (Some (W x67 x9d x63 x29 xdd x14 xa2 x09)) (C x5f None (C x30 None (C x30 (Some (W x68 xb3 xe1 x38 x23 xfe x78 xee)) O
(C x31 (Some (W x1b xb5 xe1 x38 x23 xff x78 xee)) O
(C x32 (Some (W xce xb6 xe1 x38 x23 x00 x79 xee)) O
O)))
O)
O)
(C x32 (Some (W x1a x9f x63 x29 xdd x15 xa2 x09)) (C x5f None (C x30 None (C x30 (Some (W xd7 xef x49 x48 x2d xc8 x9b x99)) O
(C x31 (Some (W x24 xee x49 x48 x2d xc7 x9b x99)) O
(C x32 (Some (W x3d xf3 x49 x48 x2d xca x9b x99)) O
O)))
O)
O)
O)))
O)
O)
(C x36 (Some (W xd6 x96 xff x42 xc3 x3b xac xd2)) (C x5f None (C x30 None (C x30 (Some (W xc3 x64 x3f x52 xe2 x3d xfd x0c)) (C x5f None (C x30 None (C x30 (Some (W x94 x13 x1d x0f x8e x5c x99 x11)) O
(C x31 (Some (W x47 x15 x1d x0f x8e x5d x99 x11)) O
(C x32 (Some (W xfa x16 x1d x0f x8e x5e x99 x11)) O
O)))
O)
O)
(C x31 (Some (W x10 x63 x3f x52 xe2 x3c xfd x0c)) (C x5f None (C x30 None (C x30 (Some (W x45 x3b x9e xac x87 x52 x4c xe4)) O
(C x31 (Some (W x92 x39 x9e xac x87 x51 x4c xe4)) O
(C x32 (Some (W xdf x37 x9e xac x87 x50 x4c xe4)) O
O)))
O)
O)
(C x32 (Some (W x29 x68 x3f x52 xe2 x3f xfd x0c)) (C x5f None (C x30 None (C x30 (Some (W xf2 x20 x04 xf5 xa0 x10 xc7 x3e)) O
(C x31 (Some (W xa5 x22 x04 xf5 xa0 x11 xc7 x3e)) O
(C x32 (Some (W x8c x1d x04 xf5 xa0 x0e xc7 x3e)) O
O)))
O)
O)
O)))
O)
O)
(C x37 (Some (W x89 x98 xff x42 xc3 x3c xac xd2)) (C x5f None (C x30 None (C x30 (Some (W x92 x53 x4b x9b xed x47 x12 xe2)) (C x5f None (C x30 None (C x30 (Some (W x0f xe4 x9f x4a x13 x29 x37 xaf)) O
(C x31 (Some (W x5c xe2 x9f x4a x13 x28 x37 xaf)) O
(C x32 (Some (W x75 xe7 x9f x4a x13 x2b x37 xaf)) O
O)))
O)
O)
(C x31 (Some (W x45 x55 x4b x9b xed x48 x12 xe2)) (C x5f None (C x30 None (C x30 (Some (W x3e x20 x09 xac x19 xb3 x3d xdb)) O
(C x31 (Some (W xf1 x21 x09 xac x19 xb4 x3d xdb)) O
(C x32 (Some (W xd8 x1c x09 xac x19 xb1 x3d xdb)) O
O)))
O)
O)
(C x32 (Some (W x2c x50 x4b x9b xed x45 x12 xe2)) (C x5f None (C x30 None (C x30 (Some (W xb1 x52 xb7 xd8 x02 x75 xc6 xd6)) O
(C x31 (Some (W xfe x50 xb7 xd8 x02 x74 xc6 xd6)) O
(C x32 (Some (W x4b x4f xb7 xd8 x02 x73 xc6 xd6)) O
O)))
O)
O)
O)))
O)
O)
(C x38 (Some (W xd4 xa7 xff x42 xc3 x45 xac xd2)) (C x5f None (C x30 None (C x30 (Some (W x99 xea xe2 xc2 x35 x42 x27 x6e)) (C x5f None (C x30 None (C x30 (Some (W x62 x93 xa2 x42 xb3 xe9 x58 x50)) O
(C x31 (Some (W x15 x95 xa2 x42 xb3 xea x58 x50)) O
(C x32 (Some (W xfc x8f xa2 x42 xb3 xe7 x58 x50)) O
O)))
O)
O)
(C x31 (Some (W xe6 xe8 xe2 xc2 x35 x41 x27 x6e)) (C x5f None (C x30 None (C x30 (Some (W x53 x4f x96 x33 xa9 x9f xa2 xa5)) O
(C x31 (Some (W xa0 x4d x96 x33 xa9 x9e xa2 xa5)) O
(C x32 (Some (W xb9 x52 x96 x33 xa9 xa1 xa2 xa5)) O
O)))
O)
O)
(C x32 (Some (W x33 xe7 xe2 xc2 x35 x40 x27 x6e)) (C x5f None (C x30 None (C x30 (Some (W x04 x70 x2c xd2 xa2 xb5 x9b x79)) O
(C x31 (Some (W xb7 x71 x2c xd2 xa2 xb6 x9b x79)) O
(C x32 (Some (W x6a x73 x2c xd2 xa2 xb7 x9b x79)) O
O)))
O)
O)
O)))
O)
O)
(C x39 (Some (W x87 xa9 xff x42 xc3 x46 xac xd2)) (C x5f None (C x30 None (C x30 (Some (W xc8 x3f xbd x0d x41 x4c x5c x45)) (C x5f None (C x30 None (C x30 (Some (W x9d x99 xf0 xaf xd8 xd2 xac x5b)) O
(C x31 (Some (W xea x97 xf0 xaf xd8 xd1 xac x5b)) O
(C x32 (Some (W x37 x96 xf0 xaf xd8 xd0 xac x5b)) O
O)))
O)
O)
(C x31 (Some (W x7b x41 xbd x0d x41 x4d x5c x45)) (C x5f None (C x30 None (C x30 (Some (W xac x23 x5a x4b xe0 x7c x12 xb2)) O
(C x31 (Some (W x5f x25 x5a x4b xe0 x7d x12 xb2)) O
(C x32 (Some (W x12 x27 x5a x4b xe0 x7e x12 xb2)) O
O)))
O)
O)
(C x32 (Some (W x2e x43 xbd x0d x41 x4e x5c x45)) (C x5f None (C x30 None (C x30 (Some (W xfb xa6 xd7 x95 xeb x86 xda x88)) O
(C x31 (Some (W x48 xa5 xd7 x95 xeb x85 xda x88)) O
(C x32 (Some (W x61 xaa xd7 x95 xeb x88 xda x88)) O
O)))
O)
O)
O)))
O)
O)
O))))))))))
(C x35 None (C x30 (Some (W xc5 xb3 x02 x43 xc3 xc3 xaf xd2)) (C x5f None (C x30 None (C x30 (Some (W xbe x3f xc8 xe8 x28 x70 x9f x7e)) (C x5f None (C x30 None (C x30 (Some (W x4b xca x58 x55 xfb xfa xc5 x08)) O
(C x31 (Some (W x98 xc8 x58 x55 xfb xf9 xc5 x08)) O
(C x32 (Some (W xb1 xcd x58 x55 xfb xfc xc5 x08)) O
O)))
O)
O)
(C x31 (Some (W x71 x41 xc8 xe8 x28 x71 x9f x7e)) (C x5f None (C x30 None (C x30 (Some (W xfa xdf xc2 xb6 x01 x05 xcd x34)) O
(C x31 (Some (W xad xe1 xc2 xb6 x01 x06 xcd x34)) O
(C x32 (Some (W x94 xdc xc2 xb6 x01 x03 xcd x34)) O
O)))
O)
O)
(C x32 (Some (W x58 x3c xc8 xe8 x28 x6e x9f x7e)) (C x5f None (C x30 None (C x30 (Some (W xed xbc x71 x6f xe8 x46 x98 xdb)) O
(C x31 (Some (W x3a xbb x71 x6f xe8 x45 x98 xdb)) O
(C x32 (Some (W x87 xb9 x71 x6f xe8 x44 x98 xdb)) O
O)))
O)
O)
O)))
O)
O)
(C x31 (Some (W x12 xb2 x02 x43 xc3 xc2 xaf xd2)) (C x5f None (C x30 None (C x30 (Some (W x8f x03 x5f x87 x22 xe6 x98 x52)) (C x5f None (C x30 None (C x30 (Some (W xd0 xa5 x65 x62 x2c x9e x3f xbe)) O
(C x31 (Some (W x83 xa7 x65 x62 x2c x9f x3f xbe)) O
(C x32 (Some (W x36 xa9 x65 x62 x2c xa0 x3f xbe)) O
O)))
O)
O)
(C x31 (Some (W xdc x01 x5f x87 x22 xe5 x98 x52)) (C x5f None (C x30 None (C x30 (Some (W xe1 x13 x59 x19 x21 x34 x2a xe9)) O
(C x31 (Some (W x2e x12 x59 x19 x21 x33 x2a xe9)) O
(C x32 (Some (W x7b x10 x59 x19 x21 x32 x2a xe9)) O
O)))
O)
O)
(C x32 (Some (W xf5 x06 x5f x87 x22 xe8 x98 x52)) (C x5f None (C x30 None (C x30 (Some (W xee x36 xaa x60 x3a xf2 x5e x42)) O
(C x31 (Some (W xa1 x38 xaa x60 x3a xf3 x5e x42)) O
(C x32 (Some (W x88 x33 xaa x60 x3a xf0 x5e x42)) O
O)))
O)
O)
O)))
O)
O)
(C x32 (Some (W x5f xb0 x02 x43 xc3 xc1 xaf xd2)) (C x5f None (C x30 None (C x30 (Some (W xe0 x42 xf6 x3d x17 xdc x16 x7d)) (C x5f None (C x30 None (C x30 (Some (W x15 x94 x9b xf0 x41 xaa x60 x8d)) O
(C x31 (Some (W x62 x92 x9b xf0 x41 xa9 x60 x8d)) O
(C x32 (Some (W xaf x90 x9b xf0 x41 xa8 x60 x8d)) O
O)))
O)
O)
(C x31 (Some (W x93 x44 xf6 x3d x17 xdd x16 x7d)) (C x5f None (C x30 None (C x30 (Some (W x24 xd8 xa7 xff x4b xf4 x16 x38)) O
(C x31 (Some (W xd7 xd9 xa7 xff x4b xf5 x16 x38)) O
(C x32 (Some (W x8a xdb xa7 xff x4b xf6 x16 x38)) O
O)))
O)
O)
(C x32 (Some (W x46 x46 xf6 x3d x17 xde x16 x7d)) (C x5f None (C x30 None (C x30 (Some (W x73 xb7 x11 x61 x52 xde x1d x64)) O
(C x31 (Some (W xc0 xb5 x11 x61 x52 xdd x1d x64)) O
(C x32 (Some (W xd9 xba x11 x61 x52 xe0 x1d x64)) O
O)))
O)
O)
O)))
O)
O)
(C x33 (Some (W xac xae x02 x43 xc3 xc0 xaf xd2)) (C x5f None (C x30 None (C x30 (Some (W x31 x72 x76 x15 x12 x32 x28 x7a)) (C x5f None (C x30 None (C x30 (Some (W xba x45 xbb xd4 x0a x05 x91 xd4)) O
(C x31 (Some (W x6d x47 xbb xd4 x0a x06 x91 xd4)) O
(C x32 (Some (W x54 x42 xbb xd4 x0a x03 x91 xd4)) O
O)))
O)
O)
(C x31 (Some (W x7e x70 x76 x15 x12 x31 x28 x7a)) (C x5f None (C x30 None (C x30 (Some (W x0b x85 x52 x8b xff xfa x0e xff)) O
(C x31 (Some (W x58 x83 x52 x8b xff xf9 x0e xff)) O
(C x32 (Some (W x71 x88 x52 x8b xff xfc x0e xff)) O
O)))
O)
O)
(C x32 (Some (W xcb x6e x76 x15 x12 x30 x28 x7a)) (C x5f None (C x30 None (C x30 (Some (W xfc x01 xd4 xee xf7 x30 x63 xa7)) O
(C x31 (Some (W xaf x03 xd4 xee xf7 x31 x63 xa7)) O
(C x32 (Some (W x62 x05 xd4 xee xf7 x32 x63 xa7)) O
O)))
O)
O)
O)))
O)
O)
(C x34 (Some (W xf9 xac x02 x43 xc3 xbf xaf xd2)) (C x5f None (C x30 None (C x30 (Some (W x02 x8b x0e xcc x06 xa8 xa6 xa4)) (C x5f None (C x30 None (C x30 (Some (W x3f xa3 x72 xf1 x4d xf5 x58 xf5)) O
(C x31 (Some (W x8c xa1 x72 xf1 x4d xf4 x58 xf5)) O
(C x32 (Some (W xa5 xa6 x72 xf1 x4d xf7 x58 xf5)) O
O)))
O)
O)
(C x31 (Some (W xb5 x8c x0e xcc x06 xa9 xa6 xa4)) (C x5f None (C x30 None (C x30 (Some (W xae x63 xdc x8c x55 xbf xbe x4b)) O
(C x31 (Some (W x61 x65 xdc x8c x55 xc0 xbe x4b)) O
(C x32 (Some (W x48 x60 xdc x8c x55 xbd xbe x4b)) O
O)))
O)
O)
(C x32 (Some (W x9c x87 x0e xcc x06 xa6 xa6 xa4)) (C x5f None (C x30 None (C x30 (Some (W xa1 x40 x8b x45 x3c x01 x8a xf2)) O
(C x31 (Some (W xee x3e x8b x45 x3c x00 x8a xf2)) O
(C x32 (Some (W x3b x3d x8b x45 x3c xff x89 xf2)) O
O)))
O)
O)
O)))
O)
O)
(C x35 (Some (W x46 xab x02 x43 xc3 xbe xaf xd2)) (C x5f None (C x30 None (C x30 (Some (W x73 x2e x8f x2f xff x5d xfa x4c)) (C x5f None (C x30 None (C x30 (Some (W x44 x32 xb2 x2e x90 x75 x60 x49)) O
(C x31 (Some (W xf7 x33 xb2 x2e x90 x76 x60 x49)) O
(C x32 (Some (W xaa x35 xb2 x2e x90 x77 x60 x49)) O
O)))
O)
O)
(C x31 (Some (W xc0 x2c x8f x2f xff x5c xfa x4c)) (C x5f None (C x30 None (C x30 (Some (W x35 xaf x33 x92 x88 xab xb4 xf1)) O
(C x31 (Some (W x82 xad x33 x92 x88 xaa xb4 xf1)) O
(C x32 (Some (W xcf xab x33 x92 x88 xa9 xb4 xf1)) O
O)))
O)
O)
(C x32 (Some (W xd9 x31 x8f x2f xff x5f xfa x4c)) (C x5f None (C x30 None (C x30 (Some (W xa2 x55 x28 x9f xa0 xa9 x1d x20)) O
(C x31 (Some (W x55 x57 x28 x9f xa0 xaa x1d x20)) O
(C x32 (Some (W x3c x52 x28 x9f xa0 xa7 x1d x20)) O
O)))
O)
O)
O)))
O)
O)
(C x36 (Some (W x93 xa9 x02 x43 xc3 xbd xaf xd2)) (C x5f None (C x30 None (C x30 (Some (W x24 x4f x25 xce xf8 x73 xf3 x20)) (C x5f None (C x30 None (C x30 (Some (W x69 x0a x50 x5c xa3 x55 x70 x56)) O
(C x31 (Some (W xb6 x08 x50 x5c xa3 x54 x70 x56)) O
(C x32 (Some (W x03 x07 x50 x5c xa3 x53 x70 x56)) O
O)))
O)
O)
(C x31 (Some (W xd7 x50 x25 xce xf8 x74 xf3 x20)) (C x5f None (C x30 None (C x30 (Some (W xd8 x9b xb9 x83 xa8 x1f x18 x58)) O
(C x31 (Some (W x8b x9d xb9 x83 xa8 x20 x18 x58)) O
(C x32 (Some (W x3e x9f xb9 x83 xa8 x21 x18 x58)) O
O)))
O)
O)
(C x32 (Some (W x8a x52 x25 xce xf8 x75 xf3 x20)) (C x5f None (C x30 None (C x30 (Some (W x87 x5c x22 xcd xb3 x29 x9a x2d)) O
(C x31 (Some (W xd4 x5a x22 xcd xb3 x28 x9a x2d)) O
(C x32 (Some (W xed x5f x22 xcd xb3 x2b x9a x2d)) O
O)))
O)
O)
O)))
O)
O)
(C x37 (Some (W xe0 xa7 x02 x43 xc3 xbc xaf xd2)) (C x5f None (C x30 None (C x30 (Some (W x15 x0b x19 xbf xee x29 x3d x76)) (C x5f None (C x30 None (C x30 (Some (W x4e xb0 x29 xd6 xda x55 x84 x07)) O
(C x31 (Some (W x01 xb2 x29 xd6 xda x56 x84 x07)) O
(C x32 (Some (W xe8 xac x29 xd6 xda x53 x84 x07)) O
O)))
O)
O)
(C x31 (Some (W x62 x09 x19 xbf xee x28 x3d x76)) (C x5f None (C x30 None (C x30 (Some (W x5f x9a xc0 xc6 xd0 x0b x61 x5c)) O
(C x31 (Some (W xac x98 xc0 xc6 xd0 x0a x61 x5c)) O
(C x32 (Some (W xc5 x9d xc0 xc6 xd0 x0d x61 x5c)) O
O)))
O)
O)
(C x32 (Some (W xaf x07 x19 xbf xee x27 x3d x76)) (C x5f None (C x30 None (C x30 (Some (W xb0 x84 x56 x65 xca x01 x5a x30)) O
(C x31 (Some (W x63 x86 x56 x65 xca x02 x5a x30)) O
(C x32 (Some (W x16 x88 x56 x65 xca x03 x5a x30)) O
O)))
O)
O)
O)))
O)
O)
(C x38 (Some (W x5d xc1 x02 x43 xc3 xcb xaf xd2)) (C x5f None (C x30 None (C x30 (Some (W x96 x9a xf6 xae x6a xe0 xad xde)) (C x5f None (C x30 None (C x30 (Some (W x83 xbb x36 x5c xcc x5e x81 x61)) O
(C x31 (Some (W xd0 xb9 x36 x5c xcc x5d x81 x61)) O
(C x32 (Some (W xe9 xbe x36 x5c xcc x60 x81 x61)) O
O)))
O)
O)
(C x31 (Some (W x49 x9c xf6 xae x6a xe1 xad xde)) (C x5f None (C x30 None (C x30 (Some (W x52 xff x43 xbd xd2 x68 x1b x8d)) O
(C x31 (Some (W x05 x01 x44 xbd xd2 x69 x1b x8d)) O
(C x32 (Some (W xec xfb x43 xbd xd2 x66 x1b x8d)) O
O)))
O)
O)
(C x32 (Some (W x30 x97 xf6 xae x6a xde xad xde)) (C x5f None (C x30 None (C x30 (Some (W x25 x2a x4e xea xbb xaa x10 x89)) O
(C x31 (Some (W x72 x28 x4e xea xbb xa9 x10 x89)) O
(C x32 (Some (W xbf x26 x4e xea xbb xa8 x10 x89)) O
O)))
O)
O)
O)))
O)
O)
(C x39 (Some (W xaa xbf x02 x43 xc3 xca xaf xd2)) (C x5f None (C x30 None (C x30 (Some (W xe7 x37 xe9 x87 x65 xb6 x72 xdd)) (C x5f None (C x30 None (C x30 (Some (W xe8 xe6 xea x54 xfb x12 x5d x7e)) O
(C x31 (Some (W x9b xe8 xea x54 xfb x13 x5d x7e)) O
(C x32 (Some (W x4e xea xea x54 xfb x14 x5d x7e)) O
O)))
O)
O)
(C x31 (Some (W x34 x36 xe9 x87 x65 xb5 x72 xdd)) (C x5f None (C x30 None (C x30 (Some (W x39 xd1 x80 xf3 xf4 x08 x56 x52)) O
(C x31 (Some (W x86 xcf x80 xf3 xf4 x07 x56 x52)) O
(C x32 (Some (W xd3 xcd x80 xf3 xf4 x06 x56 x52)) O
O)))
O)
O)
(C x32 (Some (W x4d x3b xe9 x87 x65 xb8 x72 xdd)) (C x5f None (C x30 None (C x30 (Some (W xc6 x9e xd2 xc6 x0b x47 xcd x56)) O
(C x31 (Some (W x79 xa0 xd2 xc6 x0b x48 xcd x56)) O
(C x32 (Some (W x60 x9b xd2 xc6 x0b x45 xcd x56)) O
O)))
O)
O)
O)))
O)
O)
O))))))))))
(C x36 None (C x30 (Some (W x4e xcd x05 x43 xc3 x49 xb3 xd2)) (C x5f None (C x30 None (C x30 (Some (W x5b xf7 x7f xd4 x5d x8e xb9 xee)) (C x5f None (C x30 None (C x30 (Some (W xcc x3d xb6 xdd xd7 xcc x25 x2d)) O
(C x31 (Some (W x7f x3f xb6 xdd xd7 xcd x25 x2d)) O
(C x32 (Some (W x32 x41 xb6 xdd xd7 xce x25 x2d)) O
O)))
O)
O)
(C x31 (Some (W xa8 xf5 x7f xd4 x5d x8d xb9 xee)) (C x5f None (C x30 None (C x30 (Some (W xbd x74 xda xb4 xd2 xa2 xca x29)) O
(C x31 (Some (W x0a x73 xda xb4 xd2 xa1 xca x29)) O
(C x32 (Some (W x57 x71 xda xb4 xd2 xa0 xca x29)) O
O)))
O)
O)
(C x32 (Some (W xc1 xfa x7f xd4 x5d x90 xb9 xee)) (C x5f None (C x30 None (C x30 (Some (W x4a x42 x2c x88 xe9 xe0 x41 x2e)) O
(C x31 (Some (W xfd x43 x2c x88 xe9 xe1 x41 x2e)) O
(C x32 (Some (W xe4 x3e x2c x88 xe9 xde x41 x2e)) O
O)))
O)
O)
O)))
O)
O)
(C x31 (Some (W x01 xcf x05 x43 xc3 x4a xb3 xd2)) (C x5f None (C x30 None (C x30 (Some (W x8a xde xe7 x1d x69 x18 x3b xc4)) (C x5f None (C x30 None (C x30 (Some (W x87 xe0 xfd x6e x98 x1c x7a x8b)) O
(C x31 (Some (W xd4 xde xfd x6e x98 x1b x7a x8b)) O
(C x32 (Some (W xed xe3 xfd x6e x98 x1e x7a x8b)) O
O)))
O)
O)
(C x31 (Some (W x3d xe0 xe7 x1d x69 x19 x3b xc4)) (C x5f None (C x30 None (C x30 (Some (W xb6 x06 x7d x0b xa0 x46 x26 xe3)) O
(C x31 (Some (W x69 x08 x7d x0b xa0 x47 x26 xe3)) O
(C x32 (Some (W x50 x03 x7d x0b xa0 x44 x26 xe3)) O
O)))
O)
O)
(C x32 (Some (W x24 xdb xe7 x1d x69 x16 x3b xc4)) (C x5f None (C x30 None (C x30 (Some (W x69 x8e x2b xfe x87 x48 x50 xb4)) O
(C x31 (Some (W xb6 x8c x2b xfe x87 x47 x50 xb4)) O
(C x32 (Some (W x03 x8b x2b xfe x87 x46 x50 xb4)) O
O)))
O)
O)
O)))
O)
O)
(C x32 (Some (W xe8 xc9 x05 x43 xc3 x47 xb3 xd2)) (C x5f None (C x30 None (C x30 (Some (W xfd x65 x97 x62 x4d xda x48 x16)) (C x5f None (C x30 None (C x30 (Some (W x76 x88 xb0 x4f xb6 x13 x0b x43)) O
(C x31 (Some (W x29 x8a xb0 x4f xb6 x14 x0b x43)) O
(C x32 (Some (W x10 x85 xb0 x4f xb6 x11 x0b x43)) O
O)))
O)
O)
(C x31 (Some (W x4a x64 x97 x62 x4d xd9 x48 x16)) (C x5f None (C x30 None (C x30 (Some (W x47 x62 x31 xb3 xae xe9 x5e xeb)) O
(C x31 (Some (W x94 x60 x31 xb3 xae xe8 x5e xeb)) O
(C x32 (Some (W xad x65 x31 xb3 xae xeb x5e xeb)) O
O)))
O)
O)
(C x32 (Some (W x97 x62 x97 x62 x4d xd8 x48 x16)) (C x5f None (C x30 None (C x30 (Some (W x98 x4c xc7 x51 xa8 xdf x57 xbf)) O
(C x31 (Some (W x4b x4e xc7 x51 xa8 xe0 x57 xbf)) O
(C x32 (Some (W xfe x4f xc7 x51 xa8 xe1 x57 xbf)) O
O)))
O)
O)
O)))
O)
O)
(C x33 (Some (W x9b xcb x05 x43 xc3 x48 xb3 xd2)) (C x5f None (C x30 None (C x30 (Some (W x0c xda x71 x73 x57 x04 x1f xc3)) (C x5f None (C x30 None (C x30 (Some (W x51 xe2 x1a x61 x1a xaf x11 xd2)) O
(C x31 (Some (W x9e xe0 x1a x61 x1a xae x11 xd2)) O
(C x32 (Some (W xeb xde x1a x61 x1a xad x11 xd2)) O
O)))
O)
O)
(C x31 (Some (W xbf xdb x71 x73 x57 x05 x1f xc3)) (C x5f None (C x30 None (C x30 (Some (W x80 x9a x27 xfc x21 x59 x0a x28)) O
(C x31 (Some (W x33 x9c x27 xfc x21 x5a x0a x28)) O
(C x32 (Some (W xe6 x9d x27 xfc x21 x5b x0a x28)) O
O)))
O)
O)
(C x32 (Some (W x72 xdd x71 x73 x57 x06 x1f xc3)) (C x5f None (C x30 None (C x30 (Some (W x2f xb0 x91 x5d x28 x63 x11 x54)) O
(C x31 (Some (W x7c xae x91 x5d x28 x62 x11 x54)) O
(C x32 (Some (W x95 xb3 x91 x5d x28 x65 x11 x54)) O
O)))
O)
O)
O)))
O)
O)
(C x34 (Some (W x1a xd4 x05 x43 xc3 x4d xb3 xd2)) (C x5f None (C x30 None (C x30 (Some (W xd7 x56 x39 x2b x81 x16 x11 xf3)) (C x5f None (C x30 None (C x30 (Some (W xd8 x9d x0d xf8 x41 x9f x8a x90)) O
(C x31 (Some (W x8b x9f x0d xf8 x41 xa0 x8a x90)) O
(C x32 (Some (W x3e xa1 x0d xf8 x41 xa1 x8a x90)) O
O)))
O)
O)
(C x31 (Some (W x24 x55 x39 x2b x81 x15 x11 xf3)) (C x5f None (C x30 None (C x30 (Some (W x69 x0c xa4 xd0 x3c xd5 xe2 x8e)) O
(C x31 (Some (W xb6 x0a xa4 xd0 x3c xd4 xe2 x8e)) O
(C x32 (Some (W x03 x09 xa4 xd0 x3c xd3 xe2 x8e)) O
O)))
O)
O)
(C x32 (Some (W x3d x5a x39 x2b x81 x18 x11 xf3)) (C x5f None (C x30 None (C x30 (Some (W xb6 x84 xf5 xdd x54 xd3 xb8 xbd)) O
(C x31 (Some (W x69 x86 xf5 xdd x54 xd4 xb8 xbd)) O
(C x32 (Some (W x50 x81 xf5 xdd x54 xd1 xb8 xbd)) O
O)))
O)
O)
O)))
O)
O)
(C x35 (Some (W xcd xd5 x05 x43 xc3 x4e xb3 xd2)) (C x5f None (C x30 None (C x30 (Some (W x46 xd2 xb8 x8d x87 x80 x5e x20)) (C x5f None (C x30 None (C x30 (Some (W x73 x3b xed x02 x37 xd1 xfd xc1)) O
(C x31 (Some (W xc0 x39 xed x02 x37 xd0 xfd xc1)) O
(C x32 (Some (W xd9 x3e xed x02 x37 xd3 xfd xc1)) O
O)))
O)
O)
(C x31 (Some (W xf9 xd3 xb8 x8d x87 x81 x5e x20)) (C x5f None (C x30 None (C x30 (Some (W x02 x98 x6c x9f x3e x1b xaa x19)) O
(C x31 (Some (W xb5 x99 x6c x9f x3e x1c xaa x19)) O
(C x32 (Some (W x9c x94 x6c x9f x3e x19 xaa x19)) O
O)))
O)
O)
(C x32 (Some (W xe0 xce xb8 x8d x87 x7e x5e x20)) (C x5f None (C x30 None (C x30 (Some (W x15 x18 x77 x92 x26 x9d x40 xeb)) O
(C x31 (Some (W x62 x16 x77 x92 x26 x9c x40 xeb)) O
(C x32 (Some (W xaf x14 x77 x92 x26 x9b x40 xeb)) O
O)))
O)
O)
O)))
O)
O)
(C x36 (Some (W xb4 xd0 x05 x43 xc3 x4b xb3 xd2)) (C x5f None (C x30 None (C x30 (Some (W xb9 x04 x67 xba x70 x42 xe7 x1b)) (C x5f None (C x30 None (C x30 (Some (W xc2 xfd x64 xbd x47 x1b x6e xb9)) O
(C x31 (Some (W x75 xff x64 xbd x47 x1c x6e xb9)) O
(C x32 (Some (W x5c xfa x64 xbd x47 x19 x6e xb9)) O
O)))
O)
O)
(C x31 (Some (W x06 x03 x67 xba x70 x41 xe7 x1b)) (C x5f None (C x30 None (C x30 (Some (W x33 xa1 xe5 x20 x40 xd1 xc1 x61)) O
(C x31 (Some (W x80 x9f xe5 x20 x40 xd0 xc1 x61)) O
(C x32 (Some (W x99 xa4 xe5 x20 x40 xd3 xc1 x61)) O
O)))
O)
O)
(C x32 (Some (W x53 x01 x67 xba x70 x40 xe7 x1b)) (C x5f None (C x30 None (C x30 (Some (W xe4 x16 x7d xd7 x34 xe7 x3f x8c)) O
(C x31 (Some (W x97 x18 x7d xd7 x34 xe8 x3f x8c)) O
(C x32 (Some (W x4a x1a x7d xd7 x34 xe9 x3f x8c)) O
O)))
O)
O)
O)))
O)
O)
(C x37 (Some (W x67 xd2 x05 x43 xc3 x4c xb3 xd2)) (C x5f None (C x30 None (C x30 (Some (W x68 x1a xd1 x1b x77 x4c xee x47)) (C x5f None (C x30 None (C x30 (Some (W x7d x2b xc5 x8f x40 xbc x38 xd5)) O
(C x31 (Some (W xca x29 xc5 x8f x40 xbb x38 xd5)) O
(C x32 (Some (W x17 x28 xc5 x8f x40 xba x38 xd5)) O
O)))
O)
O)
(C x31 (Some (W x1b x1c xd1 x1b x77 x4d xee x47)) (C x5f None (C x30 None (C x30 (Some (W x8c x9f x9f xa0 x4a xe6 x0e x82)) O
(C x31 (Some (W x3f xa1 x9f xa0 x4a xe7 x0e x82)) O
(C x32 (Some (W xf2 xa2 x9f xa0 x4a xe8 x0e x82)) O
O)))
O)
O)
(C x32 (Some (W xce x1d xd1 x1b x77 x4e xee x47)) (C x5f None (C x30 None (C x30 (Some (W xdb xbc xad x01 x51 x70 xa9 xad)) O
(C x31 (Some (W x28 xbb xad x01 x51 x6f xa9 xad)) O
(C x32 (Some (W x41 xc0 xad x01 x51 x72 xa9 xad)) O
O)))
O)
O)
O)))
O)
O)
(C x38 (Some (W xb6 xbf x05 x43 xc3 x41 xb3 xd2)) (C x5f None (C x30 None (C x30 (Some (W xe3 x10 x51 x48 x1d xbe x09 xb9)) (C x5f None (C x30 None (C x30 (Some (W x74 x6f xda xc5 xb8 xf4 x33 x24)) O
(C x31 (Some (W x27 x71 xda xc5 xb8 xf5 x33 x24)) O
(C x32 (Some (W xda x72 xda xc5 xb8 xf6 x33 x24)) O
O)))
O)
O)
(C x31 (Some (W x30 x0f x51 x48 x1d xbd x09 xb9)) (C x5f None (C x30 None (C x30 (Some (W x25 x52 xcc x64 xb2 x6a x99 xf8)) O
(C x31 (Some (W x72 x50 xcc x64 xb2 x69 x99 xf8)) O
(C x32 (Some (W xbf x4e xcc x64 xb2 x68 x99 xf8)) O
O)))
O)
O)
(C x32 (Some (W x49 x14 x51 x48 x1d xc0 x09 xb9)) (C x5f None (C x30 None (C x30 (Some (W x52 x27 xc2 x37 xc9 x28 xa4 xfc)) O
(C x31 (Some (W x05 x29 xc2 x37 xc9 x29 xa4 xfc)) O
(C x32 (Some (W xec x23 xc2 x37 xc9 x26 xa4 xfc)) O
O)))
O)
O)
O)))
O)
O)
(C x39 (Some (W x69 xc1 x05 x43 xc3 x42 xb3 xd2)) (C x5f None (C x30 None (C x30 (Some (W x32 xe9 xcf xaa x23 xc8 x56 xe6)) (C x5f None (C x30 None (C x30 (Some (W xef x5e x4b xb7 x8e xa3 xde x82)) O
(C x31 (Some (W x3c x5d x4b xb7 x8e xa2 xde x82)) O
(C x32 (Some (W x55 x62 x4b xb7 x8e xa5 xde x82)) O
O)))
O)
O)
(C x31 (Some (W xe5 xea xcf xaa x23 xc9 x56 xe6)) (C x5f None (C x30 None (C x30 (Some (W x1e x09 x27 x1a x95 xad x98 xb0)) O
(C x31 (Some (W xd1 x0a x27 x1a x95 xae x98 xb0)) O
(C x32 (Some (W xb8 x05 x27 x1a x95 xab x98 xb0)) O
O)))
O)
O)
(C x32 (Some (W xcc xe5 xcf xaa x23 xc6 x56 xe6)) (C x5f None (C x30 None (C x30 (Some (W x11 xe6 xd5 xd2 x7b xef x63 x57)) O
(C x31 (Some (W x5e xe4 xd5 xd2 x7b xee x63 x57)) O
(C x32 (Some (W xab xe2 xd5 xd2 x7b xed x63 x57)) O
O)))
O)
O)
O)))
O)
O)
O))))))))))
(C x37 None (C x30 (Some (W x57 x0d x08 x43 xc3 x4f xb6 xd2)) (C x5f None (C x30 None (C x30 (Some (W x58 x85 xb4 xa5 x67 xa8 xe9 x61)) (C x5f None (C x30 None (C x30 (Some (W xed x7f xb4 xf0 x9c x98 x9a x95)) O
(C x31 (Some (W x3a x7e xb4 xf0 x9c x97 x9a x95)) O
(C x32 (Some (W x87 x7c xb4 xf0 x9c x96 x9a x95)) O
O)))
O)
O)
(C x31 (Some (W x0b x87 xb4 xa5 x67 xa9 xe9 x61)) (C x5f None (C x30 None (C x30 (Some (W x3c x0a x1d x3a xa8 x82 x1c x6b)) O
(C x31 (Some (W xef x0b x1d x3a xa8 x83 x1c x6b)) O
(C x32 (Some (W xa2 x0d x1d x3a xa8 x84 x1c x6b)) O
O)))
O)
O)
(C x32 (Some (W xbe x88 xb4 xa5 x67 xaa xe9 x61)) (C x5f None (C x30 None (C x30 (Some (W x4b x8d x9b xd6 xaf x4c xc8 xc2)) O
(C x31 (Some (W x98 x8b x9b xd6 xaf x4b xc8 xc2)) O
(C x32 (Some (W xb1 x90 x9b xd6 xaf x4e xc8 xc2)) O
O)))
O)
O)
O)))
O)
O)
(C x31 (Some (W xa4 x0b x08 x43 xc3 x4e xb6 xd2)) (C x5f None (C x30 None (C x30 (Some (W xe9 xf3 x4a x7e x62 xde x41 x60)) (C x5f None (C x30 None (C x30 (Some (W xb2 xa4 xa3 x7b x89 xc8 x5f x72)) O
(C x31 (Some (W x65 xa6 xa3 x7b x89 xc9 x5f x72)) O
(C x32 (Some (W x4c xa1 xa3 x7b x89 xc6 x5f x72)) O
O)))
O)
O)
(C x31 (Some (W x36 xf2 x4a x7e x62 xdd x41 x60)) (C x5f None (C x30 None (C x30 (Some (W x63 xcc x24 x19 x83 xbe x12 x45)) O
(C x31 (Some (W xb0 xca x24 x19 x83 xbd x12 x45)) O
(C x32 (Some (W xc9 xcf x24 x19 x83 xc0 x12 x45)) O
O)))
O)
O)
(C x32 (Some (W x83 xf0 x4a x7e x62 xdc x41 x60)) (C x5f None (C x30 None (C x30 (Some (W x54 x42 xbb x7d x7b x14 xad xee)) O
(C x31 (Some (W x07 x44 xbb x7d x7b x15 xad xee)) O
(C x32 (Some (W xba x45 xbb x7d x7b x16 xad xee)) O
O)))
O)
O)
O)))
O)
O)
(C x32 (Some (W xbd x10 x08 x43 xc3 x51 xb6 xd2)) (C x5f None (C x30 None (C x30 (Some (W x36 x6c x9c x8b x7a xdc x17 x8f)) (C x5f None (C x30 None (C x30 (Some (W x63 x4a x9d xeb x37 x4b xa5 x1f)) O
(C x31 (Some (W xb0 x48 x9d xeb x37 x4a xa5 x1f)) O
(C x32 (Some (W xc9 x4d x9d xeb x37 x4d xa5 x1f)) O
O)))
O)
O)
(C x31 (Some (W xe9 x6d x9c x8b x7a xdd x17 x8f)) (C x5f None (C x30 None (C x30 (Some (W xb2 x22 x1c x4e x3e x55 xf2 x4c)) O
(C x31 (Some (W x65 x24 x1c x4e x3e x56 xf2 x4c)) O
(C x32 (Some (W x4c x1f x1c x4e x3e x53 xf2 x4c)) O
O)))
O)
O)
(C x32 (Some (W xd0 x68 x9c x8b x7a xda x17 x8f)) (C x5f None (C x30 None (C x30 (Some (W x05 x3d xb6 x05 x25 x97 x77 xf2)) O
(C x31 (Some (W x52 x3b xb6 x05 x25 x96 x77 xf2)) O
(C x32 (Some (W x9f x39 xb6 x05 x25 x95 x77 xf2)) O
O)))
O)
O)
O)))
O)
O)
(C x33 (Some (W x0a x0f x08 x43 xc3 x50 xb6 xd2)) (C x5f None (C x30 None (C x30 (Some (W x07 x46 x1d xef x72 xb2 x6b x37)) (C x5f None (C x30 None (C x30 (Some (W x48 xc9 x4b x9e x88 xcc xf7 xf2)) O
(C x31 (Some (W xfb xca x4b x9e x88 xcd xf7 xf2)) O
(C x32 (Some (W xae xcc x4b x9e x88 xce xf7 xf2)) O
O)))
O)
O)
(C x31 (Some (W x54 x44 x1d xef x72 xb1 x6b x37)) (C x5f None (C x30 None (C x30 (Some (W x19 x74 x71 x53 x7d xc2 xc2 x1b)) O
(C x31 (Some (W x66 x72 x71 x53 x7d xc1 xc2 x1b)) O
(C x32 (Some (W xb3 x70 x71 x53 x7d xc0 xc2 x1b)) O
O)))
O)
O)
(C x32 (Some (W x6d x49 x1d xef x72 xb4 x6b x37)) (C x5f None (C x30 None (C x30 (Some (W x26 x97 xc2 x9a x96 x80 xf7 x74)) O
(C x31 (Some (W xd9 x98 xc2 x9a x96 x81 xf7 x74)) O
(C x32 (Some (W xc0 x93 xc2 x9a x96 x7e xf7 x74)) O
O)))
O)
O)
O)))
O)
O)
(C x34 (Some (W x8b x06 x08 x43 xc3 x4b xb6 xd2)) (C x5f None (C x30 None (C x30 (Some (W xbc x34 xe4 x35 x49 xa0 xc6 x05)) (C x5f None (C x30 None (C x30 (Some (W x81 x47 x33 xb0 x1e x07 x3e x5c)) O
(C x31 (Some (W xce x45 x33 xb0 x1e x06 x3e x5c)) O
(C x32 (Some (W x1b x44 x33 xb0 x1e x05 x3e x5c)) O
O)))
O)
O)
(C x31 (Some (W x6f x36 xe4 x35 x49 xa1 xc6 x05)) (C x5f None (C x30 None (C x30 (Some (W x70 xe9 xb1 x12 x25 xf1 x8a x89)) O
(C x31 (Some (W x23 xeb xb1 x12 x25 xf2 x8a x89)) O
(C x32 (Some (W xd6 xec xb1 x12 x25 xf3 x8a x89)) O
O)))
O)
O)
(C x32 (Some (W x22 x38 xe4 x35 x49 xa2 xc6 x05)) (C x5f None (C x30 None (C x30 (Some (W x1f xaa x1a x5c x30 xfb x0c x5f)) O
(C x31 (Some (W x6c xa8 x1a x5c x30 xfa x0c x5f)) O
(C x32 (Some (W x85 xad x1a x5c x30 xfd x0c x5f)) O
O)))
O)
O)
O)))
O)
O)
(C x35 (Some (W xd8 x04 x08 x43 xc3 x4a xb6 xd2)) (C x5f None (C x30 None (C x30 (Some (W x6d xaa x7b xec x3d xb6 x44 x30)) (C x5f None (C x30 None (C x30 (Some (W x26 x62 x0b x04 x3f x34 x6e x29)) O
(C x31 (Some (W xd9 x63 x0b x04 x3f x35 x6e x29)) O
(C x32 (Some (W xc0 x5e x0b x04 x3f x32 x6e x29)) O
O)))
O)
O)
(C x31 (Some (W xba xa8 x7b xec x3d xb5 x44 x30)) (C x5f None (C x30 None (C x30 (Some (W xb7 x54 xfe xa2 x38 x4a xd4 xfd)) O
(C x31 (Some (W x04 x53 xfe xa2 x38 x49 xd4 xfd)) O
(C x32 (Some (W x1d x58 xfe xa2 x38 x4c xd4 xfd)) O
O)))
O)
O)
(C x32 (Some (W x07 xa7 x7b xec x3d xb4 x44 x30)) (C x5f None (C x30 None (C x30 (Some (W x48 x94 x94 x07 x31 x80 x6e xa7)) O
(C x31 (Some (W xfb x95 x94 x07 x31 x81 x6e xa7)) O
(C x32 (Some (W xae x97 x94 x07 x31 x82 x6e xa7)) O
O)))
O)
O)
O)))
O)
O)
(C x36 (Some (W xf1 x09 x08 x43 xc3 x4d xb6 xd2)) (C x5f None (C x30 None (C x30 (Some (W x7a xcd xcc x33 x57 x74 x79 x89)) (C x5f None (C x30 None (C x30 (Some (W x77 x0b xe9 x7d xa6 x63 x42 xa9)) O
(C x31 (Some (W xc4 x09 xe9 x7d xa6 x62 x42 xa9)) O
(C x32 (Some (W xdd x0e xe9 x7d xa6 x65 x42 xa9)) O
O)))
O)
O)
(C x31 (Some (W x2d xcf xcc x33 x57 x75 x79 x89)) (C x5f None (C x30 None (C x30 (Some (W xe6 xc3 xf4 xc6 xb1 x4d x57 x7e)) O
(C x31 (Some (W x99 xc5 xf4 xc6 xb1 x4e x57 x7e)) O
(C x32 (Some (W x80 xc0 xf4 xc6 xb1 x4b x57 x7e)) O
O)))
O)
O)
(C x32 (Some (W x14 xca xcc x33 x57 x72 x79 x89)) (C x5f None (C x30 None (C x30 (Some (W xd9 xa0 xa3 x7f x98 x8f x22 x25)) O
(C x31 (Some (W x26 x9f xa3 x7f x98 x8e x22 x25)) O
(C x32 (Some (W x73 x9d xa3 x7f x98 x8d x22 x25)) O
O)))
O)
O)
O)))
O)
O)
(C x37 (Some (W x3e x08 x08 x43 xc3 x4c xb6 xd2)) (C x5f None (C x30 None (C x30 (Some (W xcb xb7 x62 xd2 x50 x6a x72 x5d)) (C x5f None (C x30 None (C x30 (Some (W xfc xc4 x16 x70 xac x82 x65 x61)) O
(C x31 (Some (W xaf xc6 x16 x70 xac x83 x65 x61)) O
(C x32 (Some (W x62 xc8 x16 x70 xac x84 x65 x61)) O
O)))
O)
O)
(C x31 (Some (W x18 xb6 x62 xd2 x50 x69 x72 x5d)) (C x5f None (C x30 None (C x30 (Some (W xad xe5 xac x0e xa6 x98 x5e x35)) O
(C x31 (Some (W xfa xe3 xac x0e xa6 x97 x5e x35)) O
(C x32 (Some (W x47 xe2 xac x0e xa6 x96 x5e x35)) O
O)))
O)
O)
(C x32 (Some (W x31 xbb x62 xd2 x50 x6c x72 x5d)) (C x5f None (C x30 None (C x30 (Some (W xba x08 xfe x55 xbf x56 x93 x8e)) O
(C x31 (Some (W x6d x0a xfe x55 xbf x57 x93 x8e)) O
(C x32 (Some (W x54 x05 xfe x55 xbf x54 x93 x8e)) O
O)))
O)
O)
O)))
O)
O)
(C x38 (Some (W xbf xff x07 x43 xc3 x47 xb6 xd2)) (C x5f None (C x30 None (C x30 (Some (W x80 xa6 x29 x19 x27 x58 xcd x2b)) (C x5f None (C x30 None (C x30 (Some (W xf5 xd7 x6e x31 x46 xfd x7a x4b)) O
(C x31 (Some (W x42 xd6 x6e x31 x46 xfc x7a x4b)) O
(C x32 (Some (W x8f xd4 x6e x31 x46 xfb x7a x4b)) O
O)))
O)
O)
(C x31 (Some (W x33 xa8 x29 x19 x27 x59 xcd x2b)) (C x5f None (C x30 None (C x30 (Some (W x04 x5b xed xcd x4d xc7 x26 xa3)) O
(C x31 (Some (W xb7 x5c xed xcd x4d xc8 x26 xa3)) O
(C x32 (Some (W x6a x5e xed xcd x4d xc9 x26 xa3)) O
O)))
O)
O)
(C x32 (Some (W xe6 xa9 x29 x19 x27 x5a xcd x2b)) (C x5f None (C x30 None (C x30 (Some (W x53 x3a x57 x2f x54 xb1 x2d xcf)) O
(C x31 (Some (W xa0 x38 x57 x2f x54 xb0 x2d xcf)) O
(C x32 (Some (W xb9 x3d x57 x2f x54 xb3 x2d xcf)) O
O)))
O)
O)
O)))
O)
O)
(C x39 (Some (W x0c xfe x07 x43 xc3 x46 xb6 xd2)) (C x5f None (C x30 None (C x30 (Some (W x51 xee x1c x7e x1f xae xd4 xd5)) (C x5f None (C x30 None (C x30 (Some (W x9a xd0 xb1 xf8 xfc xd7 x78 xf4)) O
(C x31 (Some (W x4d xd2 xb1 xf8 xfc xd8 x78 xf4)) O
(C x32 (Some (W x34 xcd xb1 xf8 xfc xd5 x78 xf4)) O
O)))
O)
O)
(C x31 (Some (W x9e xec x1c x7e x1f xad xd4 xd5)) (C x5f None (C x30 None (C x30 (Some (W x6b x26 xd6 x95 xf6 xcd xbe xc6)) O
(C x31 (Some (W xb8 x24 xd6 x95 xf6 xcc xbe xc6)) O
(C x32 (Some (W xd1 x29 xd6 x95 xf6 xcf xbe xc6)) O
O)))
O)
O)
(C x32 (Some (W xeb xea x1c x7e x1f xac xd4 xd5)) (C x5f None (C x30 None (C x30 (Some (W x5c xe2 xc9 x86 xec x83 x08 x1c)) O
(C x31 (Some (W x0f xe4 xc9 x86 xec x84 x08 x1c)) O
(C x32 (Some (W xc2 xe5 xc9 x86 xec x85 x08 x1c)) O
O)))
O)
O)
O)))
O)
O)
O))))))))))
(C x38 None (C x30 (Some (W x10 x61 xdd x42 xc3 xb5 x83 xd2)) (C x5f None (C x30 None (C x30 (Some (W x45 xe5 x2a x5a x0d xd6 xd3 x6e)) (C x5f None (C x30 None (C x30 (Some (W x3e x50 x3e xec xaa x30 x5d x3b)) O
(C x31 (Some (W xf1 x51 x3e xec xaa x31 x5d x3b)) O
(C x32 (Some (W xd8 x4c x3e xec xaa x2e x5d x3b)) O
O)))
O)
O)
(C x31 (Some (W x92 xe3 x2a x5a x0d xd5 xd3 x6e)) (C x5f None (C x30 None (C x30 (Some (W x0f x14 xd5 x8a xa4 xa6 x56 x0f)) O
(C x31 (Some (W x5c x12 xd5 x8a xa4 xa5 x56 x0f)) O
(C x32 (Some (W x75 x17 xd5 x8a xa4 xa8 x56 x0f)) O
O)))
O)
O)
(C x32 (Some (W xdf xe1 x2a x5a x0d xd4 xd3 x6e)) (C x5f None (C x30 None (C x30 (Some (W x60 x53 x6c x41 x99 x9c xd4 x39)) O
(C x31 (Some (W x13 x55 x6c x41 x99 x9d xd4 x39)) O
(C x32 (Some (W xc6 x56 x6c x41 x99 x9e xd4 x39)) O
O)))
O)
O)
O)))
O)
O)
(C x31 (Some (W xc3 x62 xdd x42 xc3 xb6 x83 xd2)) (C x5f None (C x30 None (C x30 (Some (W x94 xbd xa9 xbc x13 xe0 x20 x9c)) (C x5f None (C x30 None (C x30 (Some (W x59 x47 x53 xdd x80 x5f x9b x99)) O
(C x31 (Some (W xa6 x45 x53 xdd x80 x5e x9b x99)) O
(C x32 (Some (W xf3 x43 x53 xdd x80 x5d x9b x99)) O
O)))
O)
O)
(C x31 (Some (W x47 xbf xa9 xbc x13 xe1 x20 x9c)) (C x5f None (C x30 None (C x30 (Some (W x88 xf1 x2e x40 x87 x69 x55 xc7)) O
(C x31 (Some (W x3b xf3 x2e x40 x87 x6a x55 xc7)) O
(C x32 (Some (W xee xf4 x2e x40 x87 x6b x55 xc7)) O
O)))
O)
O)
(C x32 (Some (W xfa xc0 xa9 xbc x13 xe2 x20 x9c)) (C x5f None (C x30 None (C x30 (Some (W xf7 xb1 x98 xdb x8e x33 xbb x1d)) O
(C x31 (Some (W x44 xb0 x98 xdb x8e x32 xbb x1d)) O
(C x32 (Some (W x5d xb5 x98 xdb x8e x35 xbb x1d)) O
O)))
O)
O)
O)))
O)
O)
(C x32 (Some (W x76 x64 xdd x42 xc3 xb7 x83 xd2)) (C x5f None (C x30 None (C x30 (Some (W xa3 x47 x13 x58 x1b x8a x86 xf2)) (C x5f None (C x30 None (C x30 (Some (W x34 xd7 x26 xda x2c x4c x41 x31)) O
(C x31 (Some (W xe7 xd8 x26 xda x2c x4d x41 x31)) O
(C x32 (Some (W x9a xda x26 xda x2c x4e x41 x31)) O
O)))
O)
O)
(C x31 (Some (W xf0 x45 x13 x58 x1b x89 x86 xf2)) (C x5f None (C x30 None (C x30 (Some (W xe5 x0e x1a x91 x21 xc2 x2b x5c)) O
(C x31 (Some (W x32 x0d x1a x91 x21 xc1 x2b x5c)) O
(C x32 (Some (W x7f x0b x1a x91 x21 xc0 x2b x5c)) O
O)))
O)
O)
(C x32 (Some (W x09 x4b x13 x58 x1b x8c x86 xf2)) (C x5f None (C x30 None (C x30 (Some (W x12 x8f x0e x4c x3d x80 xb1 x09)) O
(C x31 (Some (W xc5 x90 x0e x4c x3d x81 xb1 x09)) O
(C x32 (Some (W xac x8b x0e x4c x3d x7e xb1 x09)) O
O)))
O)
O)
O)))
O)
O)
(C x33 (Some (W x29 x66 xdd x42 xc3 xb8 x83 xd2)) (C x5f None (C x30 None (C x30 (Some (W xf2 xca x90 xa2 x26 x94 x4e xc9)) (C x5f None (C x30 None (C x30 (Some (W xaf x54 x5f xd5 xeb x2d xd5 x7c)) O
(C x31 (Some (W xfc x52 x5f xd5 xeb x2c xd5 x7c)) O
(C x32 (Some (W x15 x58 x5f xd5 xeb x2f xd5 x7c)) O
O)))
O)
O)
(C x31 (Some (W xa5 xcc x90 xa2 x26 x95 x4e xc9)) (C x5f None (C x30 None (C x30 (Some (W xde xa9 x39 x20 xf7 x37 x0a x54)) O
(C x31 (Some (W x91 xab x39 x20 xf7 x38 x0a x54)) O
(C x32 (Some (W x78 xa6 x39 x20 xf7 x35 x0a x54)) O
O)))
O)
O)
(C x32 (Some (W x8c xc7 x90 xa2 x26 x92 x4e xc9)) (C x5f None (C x30 None (C x30 (Some (W xd1 x86 xe8 xd8 xdd x79 xd5 xfa)) O
(C x31 (Some (W x1e x85 xe8 xd8 xdd x78 xd5 xfa)) O
(C x32 (Some (W x6b x83 xe8 xd8 xdd x77 xd5 xfa)) O
O)))
O)
O)
O)))
O)
O)
(C x34 (Some (W xdc x67 xdd x42 xc3 xb9 x83 xd2)) (C x5f None (C x30 None (C x30 (Some (W xe1 x35 xfb xc9 x2b xde xf6 xca)) (C x5f None (C x30 None (C x30 (Some (W xaa xb7 xbf xa0 x2b xc2 x77 xc9)) O
(C x31 (Some (W x5d xb9 xbf xa0 x2b xc3 x77 xc9)) O
(C x32 (Some (W x44 xb4 xbf xa0 x2b xc0 x77 xc9)) O
O)))
O)
O)
(C x31 (Some (W x2e x34 xfb xc9 x2b xdd xf6 xca)) (C x5f None (C x30 None (C x30 (Some (W xfb xa1 x55 x3f x25 xb8 x70 x9d)) O
(C x31 (Some (W x48 xa0 x55 x3f x25 xb7 x70 x9d)) O
(C x32 (Some (W x61 xa5 x55 x3f x25 xba x70 x9d)) O
O)))
O)
O)
(C x32 (Some (W x7b x32 xfb xc9 x2b xdc xf6 xca)) (C x5f None (C x30 None (C x30 (Some (W xac x1e xd8 xf4 x19 xae xa8 xc6)) O
(C x31 (Some (W x5f x20 xd8 xf4 x19 xaf xa8 xc6)) O
(C x32 (Some (W x12 x22 xd8 xf4 x19 xb0 xa8 xc6)) O
O)))
O)
O)
O)))
O)
O)
(C x35 (Some (W x8f x69 xdd x42 xc3 xba x83 xd2)) (C x5f None (C x30 None (C x30 (Some (W xd0 xc7 x07 x13 x37 x48 x0c xa0)) (C x5f None (C x30 None (C x30 (Some (W x05 xb2 xb0 xbb xce xd1 x7e x0f)) O
(C x31 (Some (W x52 xb0 xb0 xbb xce xd0 x7e x0f)) O
(C x32 (Some (W x9f xae xb0 xbb xce xcf x7e x0f)) O
O)))
O)
O)
(C x31 (Some (W x83 xc9 x07 x13 x37 x49 x0c xa0)) (C x5f None (C x30 None (C x30 (Some (W x54 x35 x2e x06 xda xdb x46 xe6)) O
(C x31 (Some (W x07 x37 x2e x06 xda xdc x46 xe6)) O
(C x32 (Some (W xba x38 x2e x06 xda xdd x46 xe6)) O
O)))
O)
O)
(C x32 (Some (W x36 xcb x07 x13 x37 x4a x0c xa0)) (C x5f None (C x30 None (C x30 (Some (W x63 xbf x97 xa1 xe1 x85 xac x3c)) O
(C x31 (Some (W xb0 xbd x97 xa1 xe1 x84 xac x3c)) O
(C x32 (Some (W xc9 xc2 x97 xa1 xe1 x87 xac x3c)) O
O)))
O)
O)
O)))
O)
O)
(C x36 (Some (W x42 x6b xdd x42 xc3 xbb x83 xd2)) (C x5f None (C x30 None (C x30 (Some (W x7f x98 xe2 x75 x3d xd2 xc5 xcd)) (C x5f None (C x30 None (C x30 (Some (W x40 xd9 xfc x55 xdc x23 x0a xb1)) O
(C x31 (Some (W xf3 xda xfc x55 xdc x24 x0a xb1)) O
(C x32 (Some (W xa6 xdc xfc x55 xdc x25 x0a xb1)) O
O)))
O)
O)
(C x31 (Some (W xcc x96 xe2 x75 x3d xd1 xc5 xcd)) (C x5f None (C x30 None (C x30 (Some (W x11 x21 xf0 xba xd4 x79 x11 x5b)) O
(C x31 (Some (W x5e x1f xf0 xba xd4 x78 x11 x5b)) O
(C x32 (Some (W xab x1d xf0 xba xd4 x77 x11 x5b)) O
O)))
O)
O)
(C x32 (Some (W xe5 x9b xe2 x75 x3d xd4 xc5 xcd)) (C x5f None (C x30 None (C x30 (Some (W x1e x44 x41 x02 xee x37 x46 xb4)) O
(C x31 (Some (W xd1 x45 x41 x02 xee x38 x46 xb4)) O
(C x32 (Some (W xb8 x40 x41 x02 xee x35 x46 xb4)) O
O)))
O)
O)
O)))
O)
O)
(C x37 (Some (W xf5 x6c xdd x42 xc3 xbc x83 xd2)) (C x5f None (C x30 None (C x30 (Some (W xee x58 x4c x11 x45 x9c x2b x24)) (C x5f None (C x30 None (C x30 (Some (W xbb x58 x40 x1a x93 xd1 xde x48)) O
(C x31 (Some (W x08 x57 x40 x1a x93 xd0 xde x48)) O
(C x32 (Some (W x21 x5c x40 x1a x93 xd3 xde x48)) O
O)))
O)
O)
(C x31 (Some (W xa1 x5a x4c x11 x45 x9d x2b x24)) (C x5f None (C x30 None (C x30 (Some (W x6a x19 xa9 x63 x9e xdb x60 x1e)) O
(C x31 (Some (W x1d x1b xa9 x63 x9e xdc x60 x1e)) O
(C x32 (Some (W x04 x16 xa9 x63 x9e xd9 x60 x1e)) O
O)))
O)
O)
(C x32 (Some (W x88 x55 x4c x11 x45 x9a x2b x24)) (C x5f None (C x30 None (C x30 (Some (W x5d xf6 x57 x1c x85 x1d x2c xc5)) O
(C x31 (Some (W xaa xf4 x57 x1c x85 x1c x2c xc5)) O
(C x32 (Some (W xf7 xf2 x57 x1c x85 x1b x2c xc5)) O
O)))
O)
O)
O)))
O)
O)
(C x38 (Some (W xa8 x6e xdd x42 xc3 xbd x83 xd2)) (C x5f None (C x30 None (C x30 (Some (W xbd x47 x58 x5a x50 xa6 x40 xf9)) (C x5f None (C x30 None (C x30 (Some (W x36 x29 xc3 x55 x18 x9e x7c xe6)) O
(C x31 (Some (W xe9 x2a xc3 x55 x18 x9f x7c xe6)) O
(C x32 (Some (W xd0 x25 xc3 x55 x18 x9c x7c xe6)) O
O)))
O)
O)
(C x31 (Some (W x0a x46 x58 x5a x50 xa5 x40 xf9)) (C x5f None (C x30 None (C x30 (Some (W x07 x03 x44 xb9 x10 x74 xd0 x8e)) O
(C x31 (Some (W x54 x01 x44 xb9 x10 x73 xd0 x8e)) O
(C x32 (Some (W x6d x06 x44 xb9 x10 x76 xd0 x8e)) O
O)))
O)
O)
(C x32 (Some (W x57 x44 x58 x5a x50 xa4 x40 xf9)) (C x5f None (C x30 None (C x30 (Some (W x58 x42 xdb x6f x05 x6a x4e xb9)) O
(C x31 (Some (W x0b x44 xdb x6f x05 x6b x4e xb9)) O
(C x32 (Some (W xbe x45 xdb x6f x05 x6c x4e xb9)) O
O)))
O)
O)
O)))
O)
O)
(C x39 (Some (W x5b x70 xdd x42 xc3 xbe x83 xd2)) (C x5f None (C x30 None (C x30 (Some (W xcc x10 x34 x83 x55 xd0 x9b xfc)) (C x5f None (C x30 None (C x30 (Some (W x11 x9f x68 x8d x89 x06 xa4 x35)) O
(C x31 (Some (W x5e x9d x68 x8d x89 x05 xa4 x35)) O
(C x32 (Some (W xab x9b x68 x8d x89 x04 xa4 x35)) O
O)))
O)
O)
(C x31 (Some (W x7f x12 x34 x83 x55 xd1 x9b xfc)) (C x5f None (C x30 None (C x30 (Some (W x40 x57 x75 x28 x91 xb0 x9c x8b)) O
(C x31 (Some (W xf3 x58 x75 x28 x91 xb1 x9c x8b)) O
(C x32 (Some (W xa6 x5a x75 x28 x91 xb2 x9c x8b)) O
O)))
O)
O)
(C x32 (Some (W x32 x14 x34 x83 x55 xd2 x9b xfc)) (C x5f None (C x30 None (C x30 (Some (W xef x17 xde x71 x9c xba x1e x61)) O
(C x31 (Some (W x3c x16 xde x71 x9c xb9 x1e x61)) O
(C x32 (Some (W x55 x1b xde x71 x9c xbc x1e x61)) O
O)))
O)
O)
O)))
O)
O)
O))))))))))
(C x39 None (C x30 (Some (W x19 xa1 xdf x42 xc3 xbb x86 xd2)) (C x5f None (C x30 None (C x30 (Some (W xe2 x7a x03 x2b x17 x70 x97 xe1)) (C x5f None (C x30 None (C x30 (Some (W xdf x6a x77 xe3 x35 x39 x7a x0d)) O
(C x31 (Some (W x2c x69 x77 xe3 x35 x38 x7a x0d)) O
(C x32 (Some (W x45 x6e x77 xe3 x35 x3b x7a x0d)) O
O)))
O)
O)
(C x31 (Some (W x95 x7c x03 x2b x17 x71 x97 xe1)) (C x5f None (C x30 None (C x30 (Some (W xce x80 xe0 xf2 x3f x83 x9d xb8)) O
(C x31 (Some (W x81 x82 xe0 xf2 x3f x84 x9d xb8)) O
(C x32 (Some (W x68 x7d xe0 xf2 x3f x81 x9d xb8)) O
O)))
O)
O)
(C x32 (Some (W x7c x77 x03 x2b x17 x6e x97 xe1)) (C x5f None (C x30 None (C x30 (Some (W x41 x08 x90 x37 x24 x45 xab x0a)) O
(C x31 (Some (W x8e x06 x90 x37 x24 x44 xab x0a)) O
(C x32 (Some (W xdb x04 x90 x37 x24 x43 xab x0a)) O
O)))
O)
O)
O)))
O)
O)
(C x31 (Some (W x66 x9f xdf x42 xc3 xba x86 xd2)) (C x5f None (C x30 None (C x30 (Some (W xd3 x36 xf7 x1b x0d x26 xe1 x36)) (C x5f None (C x30 None (C x30 (Some (W x64 xd3 x65 x5e x6d x39 xd4 xbf)) O
(C x31 (Some (W x17 xd5 x65 x5e x6d x3a xd4 xbf)) O
(C x32 (Some (W xca xd6 x65 x5e x6d x3b xd4 xbf)) O
O)))
O)
O)
(C x31 (Some (W x20 x35 xf7 x1b x0d x25 xe1 x36)) (C x5f None (C x30 None (C x30 (Some (W x55 x3a x58 x37 x68 xef x98 xbe)) O
(C x31 (Some (W xa2 x38 x58 x37 x68 xee x98 xbe)) O
(C x32 (Some (W xef x36 x58 x37 x68 xed x98 xbe)) O
O)))
O)
O)
(C x32 (Some (W x39 x3a xf7 x1b x0d x28 xe1 x36)) (C x5f None (C x30 None (C x30 (Some (W x42 xba x4d x44 x80 x6d x02 xed)) O
(C x31 (Some (W xf5 xbb x4d x44 x80 x6e x02 xed)) O
(C x32 (Some (W xdc xb6 x4d x44 x80 x6b x02 xed)) O
O)))
O)
O)
O)))
O)
O)
(C x32 (Some (W xb3 x9d xdf x42 xc3 xb9 x86 xd2)) (C x5f None (C x30 None (C x30 (Some (W x84 x57 x8d xba x06 x3c xda x0a)) (C x5f None (C x30 None (C x30 (Some (W x89 xab x03 x8c x80 x19 xe4 xcc)) O
(C x31 (Some (W xd6 xa9 x03 x8c x80 x18 xe4 xcc)) O
(C x32 (Some (W x23 xa8 x03 x8c x80 x17 xe4 xcc)) O
O)))
O)
O)
(C x31 (Some (W x37 x59 x8d xba x06 x3d xda x0a)) (C x5f None (C x30 None (C x30 (Some (W xf8 x6b x6d x27 x88 xe3 x49 x23)) O
(C x31 (Some (W xab x6d x6d x27 x88 xe4 x49 x23)) O
(C x32 (Some (W x5e x6f x6d x27 x88 xe5 x49 x23)) O
O)))
O)
O)
(C x32 (Some (W xea x5a x8d xba x06 x3e xda x0a)) (C x5f None (C x30 None (C x30 (Some (W x27 x16 x49 x8a x8e xed x03 x51)) O
(C x31 (Some (W x74 x14 x49 x8a x8e xec x03 x51)) O
(C x32 (Some (W x8d x19 x49 x8a x8e xef x03 x51)) O
O)))
O)
O)
O)))
O)
O)
(C x33 (Some (W x00 x9c xdf x42 xc3 xb8 x86 xd2)) (C x5f None (C x30 None (C x30 (Some (W x75 xd4 x0e x1e xff x71 x2e xb3)) (C x5f None (C x30 None (C x30 (Some (W x6e x7b x7d xe4 xed x1d xae x1e)) O
(C x31 (Some (W x21 x7d x7d xe4 xed x1e xae x1e)) O
(C x32 (Some (W x08 x78 x7d xe4 xed x1b xae x1e)) O
O)))
O)
O)
(C x31 (Some (W xc2 xd2 x0e x1e xff x70 x2e xb3)) (C x5f None (C x30 None (C x30 (Some (W xff xba x13 x49 xe6 x53 x48 xc8)) O
(C x31 (Some (W x4c xb9 x13 x49 xe6 x52 x48 xc8)) O
(C x32 (Some (W x65 xbe x13 x49 xe6 x55 x48 xc8)) O
O)))
O)
O)
(C x32 (Some (W x0f xd1 x0e x1e xff x6f x2e xb3)) (C x5f None (C x30 None (C x30 (Some (W x50 xea x38 xe6 xdf xc9 x8e x9a)) O
(C x31 (Some (W x03 xec x38 xe6 xdf xca x8e x9a)) O
(C x32 (Some (W xb6 xed x38 xe6 xdf xcb x8e x9a)) O
O)))
O)
O)
O)))
O)
O)
(C x34 (Some (W xe5 xa7 xdf x42 xc3 xbf x86 xd2)) (C x5f None (C x30 None (C x30 (Some (W x1e x48 x30 xd5 x36 x38 x86 x68)) (C x5f None (C x30 None (C x30 (Some (W xeb x44 x0d x85 xd8 x3e x3a x7f)) O
(C x31 (Some (W x38 x43 x0d x85 xd8 x3d x3a x7f)) O
(C x32 (Some (W x51 x48 x0d x85 xd8 x40 x3a x7f)) O
O)))
O)
O)
(C x31 (Some (W xd1 x49 x30 xd5 x36 x39 x86 x68)) (C x5f None (C x30 None (C x30 (Some (W x1a xef xe8 xe7 xde x48 xf4 xac)) O
(C x31 (Some (W xcd xf0 xe8 xe7 xde x49 xf4 xac)) O
(C x32 (Some (W xb4 xeb xe8 xe7 xde x46 xf4 xac)) O
O)))
O)
O)
(C x32 (Some (W xb8 x44 x30 xd5 x36 x36 x86 x68)) (C x5f None (C x30 None (C x30 (Some (W x8d x21 x97 x14 xc8 x0a x7d xa8)) O
(C x31 (Some (W xda x1f x97 x14 xc8 x09 x7d xa8)) O
(C x32 (Some (W x27 x1e x97 x14 xc8 x08 x7d xa8)) O
O)))
O)
O)
O)))
O)
O)
(C x35 (Some (W x32 xa6 xdf x42 xc3 xbe x86 xd2)) (C x5f None (C x30 None (C x30 (Some (W xef x9d x54 x72 x30 x2e xcc x3a)) (C x5f None (C x30 None (C x30 (Some (W xf0 x0b xf8 x5c x9d x48 xe1 x8c)) O
(C x31 (Some (W xa3 x0d xf8 x5c x9d x49 xe1 x8c)) O
(C x32 (Some (W x56 x0f xf8 x5c x9d x4a xe1 x8c)) O
O)))
O)
O)
(C x31 (Some (W x3c x9c x54 x72 x30 x2d xcc x3a)) (C x5f None (C x30 None (C x30 (Some (W x01 x6a x79 xfa x96 x5e x94 x5f)) O
(C x31 (Some (W x4e x68 x79 xfa x96 x5d x94 x5f)) O
(C x32 (Some (W x9b x66 x79 xfa x96 x5c x94 x5f)) O
O)))
O)
O)
(C x32 (Some (W x55 xa1 x54 x72 x30 x30 xcc x3a)) (C x5f None (C x30 None (C x30 (Some (W x8e x37 xcb xcd xad x9c x0b x64)) O
(C x31 (Some (W x41 x39 xcb xcd xad x9d x0b x64)) O
(C x32 (Some (W x28 x34 xcb xcd xad x9a x0b x64)) O
O)))
O)
O)
O)))
O)
O)
(C x36 (Some (W x7f xa4 xdf x42 xc3 xbd x86 xd2)) (C x5f None (C x30 None (C x30 (Some (W x40 xdd xeb x28 x25 x24 x4a x65)) (C x5f None (C x30 None (C x30 (Some (W xb5 x94 xbc x5d xb5 x54 x0d xaf)) O
(C x31 (Some (W x02 x93 xbc x5d xb5 x53 x0d xaf)) O
(C x32 (Some (W x4f x91 xbc x5d xb5 x52 x0d xaf)) O
O)))
O)
O)
(C x31 (Some (W xf3 xde xeb x28 x25 x25 x4a x65)) (C x5f None (C x30 None (C x30 (Some (W xc4 x17 x3b xfa xbc x1e xb9 x06)) O
(C x31 (Some (W x77 x19 x3b xfa xbc x1f xb9 x06)) O
(C x32 (Some (W x2a x1b x3b xfa xbc x20 xb9 x06)) O
O)))
O)
O)
(C x32 (Some (W xa6 xe0 xeb x28 x25 x26 x4a x65)) (C x5f None (C x30 None (C x30 (Some (W x13 xa2 xa3 x43 xc8 x08 x3b xdc)) O
(C x31 (Some (W x60 xa0 xa3 x43 xc8 x07 x3b xdc)) O
(C x32 (Some (W x79 xa5 xa3 x43 xc8 x0a x3b xdc)) O
O)))
O)
O)
O)))
O)
O)
(C x37 (Some (W xcc xa2 xdf x42 xc3 xbc x86 xd2)) (C x5f None (C x30 None (C x30 (Some (W x11 x25 xdf x8d x1d x7a x51 x0f)) (C x5f None (C x30 None (C x30 (Some (W x5a x38 xfe x0c x71 x2f x86 x01)) O
(C x31 (Some (W x0d x3a xfe x0c x71 x30 x86 x01)) O
(C x32 (Some (W xf4 x34 xfe x0c x71 x2d x86 x01)) O
O)))
O)
O)
(C x31 (Some (W x5e x23 xdf x8d x1d x79 x51 x0f)) (C x5f None (C x30 None (C x30 (Some (W x2b xe3 x23 xc2 x65 x25 x51 x2a)) O
(C x31 (Some (W x78 xe1 x23 xc2 x65 x24 x51 x2a)) O
(C x32 (Some (W x91 xe6 x23 xc2 x65 x27 x51 x2a)) O
O)))
O)
O)
(C x32 (Some (W xab x21 xdf x8d x1d x78 x51 x0f)) (C x5f None (C x30 None (C x30 (Some (W x1c x4a x16 x9b x60 xdb x15 x29)) O
(C x31 (Some (W xcf x4b x16 x9b x60 xdc x15 x29)) O
(C x32 (Some (W x82 x4d x16 x9b x60 xdd x15 x29)) O
O)))
O)
O)
O)))
O)
O)
(C x38 (Some (W xb1 xae xdf x42 xc3 xc3 x86 xd2)) (C x5f None (C x30 None (C x30 (Some (W x3a xaf x8d x2b x5a x40 x71 x6c)) (C x5f None (C x30 None (C x30 (Some (W x37 xac xfb x83 x08 xee xb3 x4c)) O
(C x31 (Some (W x84 xaa xfb x83 x08 xed xb3 x4c)) O
(C x32 (Some (W x9d xaf xfb x83 x08 xf0 xb3 x4c)) O
O)))
O)
O)
(C x31 (Some (W xed xb0 x8d x2b x5a x41 x71 x6c)) (C x5f None (C x30 None (C x30 (Some (W xa6 xb9 x08 xe5 x0e xd8 x4d x78)) O
(C x31 (Some (W x59 xbb x08 xe5 x0e xd9 x4d x78)) O
(C x32 (Some (W x40 xb6 x08 xe5 x0e xd6 x4d x78)) O
O)))
O)
O)
(C x32 (Some (W xd4 xab x8d x2b x5a x3e x71 x6c)) (C x5f None (C x30 None (C x30 (Some (W x99 x96 xb7 x9d xf5 x19 x19 x1f)) O
(C x31 (Some (W xe6 x94 xb7 x9d xf5 x18 x19 x1f)) O
(C x32 (Some (W x33 x93 xb7 x9d xf5 x17 x19 x1f)) O
O)))
O)
O)
O)))
O)
O)
(C x39 (Some (W xfe xac xdf x42 xc3 xc2 x86 xd2)) (C x5f None (C x30 None (C x30 (Some (W x8b xee x24 xe2 x4e x36 xef x96)) (C x5f None (C x30 None (C x30 (Some (W xbc x2c x63 x84 x20 xda x72 x6e)) O
(C x31 (Some (W x6f x2e x63 x84 x20 xdb x72 x6e)) O
(C x32 (Some (W x22 x30 x63 x84 x20 xdc x72 x6e)) O
O)))
O)
O)
(C x31 (Some (W xd8 xec x24 xe2 x4e x35 xef x96)) (C x5f None (C x30 None (C x30 (Some (W x6d xa2 xfa x3a x15 xf0 xf0 x98)) O
(C x31 (Some (W xba xa0 xfa x3a x15 xef xf0 x98)) O
(C x32 (Some (W x07 x9f xfa x3a x15 xee xf0 x98)) O
O)))
O)
O)
(C x32 (Some (W xf1 xf1 x24 xe2 x4e x38 xef x96)) (C x5f None (C x30 None (C x30 (Some (W x7a xc5 x4b x82 x2e xae x25 xf2)) O
(C x31 (Some (W x2d xc7 x4b x82 x2e xaf x25 xf2)) O
(C x32 (Some (W x14 xc2 x4b x82 x2e xac x25 xf2)) O
O)))
O)
O)
O)))
O)
O)
O))))))))))
O))))))))))
O)
O)
O)
O)
O)
O)
O)
(C x73 None (C x6e None (C x6f None (C x77 None (C x5f None (C x30 None (C x30 (Some (W x1d x01 x9f xd2 x25 x01 x40 xd7)) (C x5f None (C x30 None (C x30 (Some (W x56 x05 xd5 x9d xbc x1a x46 x33)) (C x5f None (C x30 None (C x30 (Some (W x43 x34 xf3 x77 xe2 x62 x04 xd6)) O
(C x31 (Some (W x90 x32 xf3 x77 xe2 x61 x04 xd6)) O
(C x32 (Some (W xa9 x37 xf3 x77 xe2 x64 x04 xd6)) O
O)))
O)
O)
(C x31 (Some (W x09 x07 xd5 x9d xbc x1b x46 x33)) (C x5f None (C x30 None (C x30 (Some (W x12 x23 xff xc0 xed x6c x19 xab)) O
(C x31 (Some (W xc5 x24 xff xc0 xed x6d x19 xab)) O
(C x32 (Some (W xac x1f xff xc0 xed x6a x19 xab)) O
O)))
O)
O)
(C x32 (Some (W xf0 x01 xd5 x9d xbc x18 x46 x33)) (C x5f None (C x30 None (C x30 (Some (W xe5 xa2 x0a x06 xd2 xae x93 xfd)) O
(C x31 (Some (W x32 xa1 x0a x06 xd2 xad x93 xfd)) O
(C x32 (Some (W x7f x9f x0a x06 xd2 xac x93 xfd)) O
O)))
O)
O)
O)))
O)
O)
(C x31 (Some (W x6a xff x9e xd2 x25 x00 x40 xd7)) (C x5f None (C x30 None (C x30 (Some (W xa7 xf7 xc8 x8e xb2 xf0 x8f x88)) (C x5f None (C x30 None (C x30 (Some (W xa8 xd1 xdf x66 x28 xe4 xf6 x05)) O
(C x31 (Some (W x5b xd3 xdf x66 x28 xe5 xf6 x05)) O
(C x32 (Some (W x0e xd5 xdf x66 x28 xe6 xf6 x05)) O
O)))
O)
O)
(C x31 (Some (W xf4 xf5 xc8 x8e xb2 xef x8f x88)) (C x5f None (C x30 None (C x30 (Some (W xf9 x10 x77 x1d x1d xda x74 x30)) O
(C x31 (Some (W x46 x0f x77 x1d x1d xd9 x74 x30)) O
(C x32 (Some (W x93 x0d x77 x1d x1d xd8 x74 x30)) O
O)))
O)
O)
(C x32 (Some (W x0d xfb xc8 x8e xb2 xf2 x8f x88)) (C x5f None (C x30 None (C x30 (Some (W x86 x89 xc7 xd8 x38 x18 x67 xde)) O
(C x31 (Some (W x39 x8b xc7 xd8 x38 x19 x67 xde)) O
(C x32 (Some (W x20 x86 xc7 xd8 x38 x16 x67 xde)) O
O)))
O)
O)
O)))
O)
O)
(C x32 (Some (W xb7 xfd x9e xd2 x25 xff x3f xd7)) (C x5f None (C x30 None (C x30 (Some (W x78 x4d xed x2b xac xe6 xd5 x5a)) (C x5f None (C x30 None (C x30 (Some (W x4d x24 xcb x04 xec x4d x3f xe9)) O
(C x31 (Some (W x9a x22 xcb x04 xec x4c x3f xe9)) O
(C x32 (Some (W xe7 x20 xcb x04 xec x4b x3f xe9)) O
O)))
O)
O)
(C x31 (Some (W x2b x4f xed x2b xac xe7 xd5 x5a)) (C x5f None (C x30 None (C x30 (Some (W x9c xae x33 x4e xf7 x37 xc1 xbe)) O
(C x31 (Some (W x4f xb0 x33 x4e xf7 x38 xc1 xbe)) O
(C x32 (Some (W x02 xb2 x33 x4e xf7 x39 xc1 xbe)) O
O)))
O)
O)
(C x32 (Some (W xde x50 xed x2b xac xe8 xd5 x5a)) (C x5f None (C x30 None (C x30 (Some (W xab x47 x41 x75 xfc x81 xfc xbf)) O
(C x31 (Some (W xf8 x45 x41 x75 xfc x80 xfc xbf)) O
(C x32 (Some (W x11 x4b x41 x75 xfc x83 xfc xbf)) O
O)))
O)
O)
O)))
O)
O)
(C x33 (Some (W x04 xfc x9e xd2 x25 xfe x3f xd7)) (C x5f None (C x30 None (C x30 (Some (W x09 x8d x83 x90 xa4 x1c x70 x04)) (C x5f None (C x30 None (C x30 (Some (W x12 xa5 x86 xee x38 xe0 x86 xd0)) O
(C x31 (Some (W xc5 xa6 x86 xee x38 xe1 x86 xd0)) O
(C x32 (Some (W xac xa1 x86 xee x38 xde x86 xd0)) O
O)))
O)
O)
(C x31 (Some (W x56 x8b x83 x90 xa4 x1b x70 x04)) (C x5f None (C x30 None (C x30 (Some (W x43 xb6 x7a xa5 x2d xd6 x71 xfb)) O
(C x31 (Some (W x90 xb4 x7a xa5 x2d xd5 x71 xfb)) O
(C x32 (Some (W xa9 xb9 x7a xa5 x2d xd8 x71 xfb)) O
O)))
O)
O)
(C x32 (Some (W xa3 x89 x83 x90 xa4 x1a x70 x04)) (C x5f None (C x30 None (C x30 (Some (W x34 xed x9e x7c x28 xac x16 xf8)) O
(C x31 (Some (W xe7 xee x9e x7c x28 xad x16 xf8)) O
(C x32 (Some (W x9a xf0 x9e x7c x28 xae x16 xf8)) O
O)))
O)
O)
O)))
O)
O)
(C x34 (Some (W x51 xfa x9e xd2 x25 xfd x3f xd7)) (C x5f None (C x30 None (C x30 (Some (W x9a xd4 x77 x47 x99 x32 x5b x2f)) (C x5f None (C x30 None (C x30 (Some (W x57 xac x5e xb3 xbf x94 x30 x5c)) O
(C x31 (Some (W xa4 xaa x5e xb3 xbf x93 x30 x5c)) O
(C x32 (Some (W xbd xaf x5e xb3 xbf x96 x30 x5c)) O
O)))
O)
O)
(C x31 (Some (W x4d xd6 x77 x47 x99 x33 x5b x2f)) (C x5f None (C x30 None (C x30 (Some (W xc6 x27 xde x15 xc6 xfe x7d x89)) O
(C x31 (Some (W x79 x29 xde x15 xc6 xff x7d x89)) O
(C x32 (Some (W x60 x24 xde x15 xc6 xfc x7d x89)) O
O)))
O)
O)
(C x32 (Some (W x34 xd1 x77 x47 x99 x30 x5b x2f)) (C x5f None (C x30 None (C x30 (Some (W x39 x5a x8c x42 xaf xc0 x06 x85)) O
(C x31 (Some (W x86 x58 x8c x42 xaf xbf x06 x85)) O
(C x32 (Some (W xd3 x56 x8c x42 xaf xbe x06 x85)) O
O)))
O)
O)
O)))
O)
O)
(C x35 (Some (W x9e xf8 x9e xd2 x25 xfc x3f xd7)) (C x5f None (C x30 None (C x30 (Some (W x6b x2a x9c xe4 x92 x28 xa1 x01)) (C x5f None (C x30 None (C x30 (Some (W xdc x4c x4a x8b x84 x1e xd8 x69)) O
(C x31 (Some (W x8f x4e x4a x8b x84 x1f xd8 x69)) O
(C x32 (Some (W x42 x50 x4a x8b x84 x20 xd8 x69)) O
O)))
O)
O)
(C x31 (Some (W xb8 x28 x9c xe4 x92 x27 xa1 x01)) (C x5f None (C x30 None (C x30 (Some (W x8d x6d xe0 x29 x7e x34 xd1 x3d)) O
(C x31 (Some (W xda x6b xe0 x29 x7e x33 xd1 x3d)) O
(C x32 (Some (W x27 x6a xe0 x29 x7e x32 xd1 x3d)) O
O)))
O)
O)
(C x32 (Some (W xd1 x2d x9c xe4 x92 x2a xa1 x01)) (C x5f None (C x30 None (C x30 (Some (W x1a x3b x32 xfd x94 x72 x48 x42)) O
(C x31 (Some (W xcd x3c x32 xfd x94 x73 x48 x42)) O
(C x32 (Some (W xb4 x37 x32 xfd x94 x70 x48 x42)) O
O)))
O)
O)
O)))
O)
O)
(C x36 (Some (W xeb xf6 x9e xd2 x25 xfb x3f xd7)) (C x5f None (C x30 None (C x30 (Some (W x5c xe6 x8f xd5 x88 xde xea x56)) (C x5f None (C x30 None (C x30 (Some (W x61 xb5 x38 x06 xbc x1e x32 x1c)) O
(C x31 (Some (W xae xb3 x38 x06 xbc x1d x32 x1c)) O
(C x32 (Some (W xfb xb1 x38 x06 xbc x1c x32 x1c)) O
O)))
O)
O)
(C x31 (Some (W x0f xe8 x8f xd5 x88 xdf xea x56)) (C x5f None (C x30 None (C x30 (Some (W x50 x47 x45 x4f xc7 x88 x47 xf1)) O
(C x31 (Some (W x03 x49 x45 x4f xc7 x89 x47 xf1)) O
(C x32 (Some (W xb6 x4a x45 x4f xc7 x8a x47 xf1)) O
O)))
O)
O)
(C x32 (Some (W xc2 xe9 x8f xd5 x88 xe0 xea x56)) (C x5f None (C x30 None (C x30 (Some (W xff x17 x20 xb2 xcd x12 x01 x1f)) O
(C x31 (Some (W x4c x16 x20 xb2 xcd x11 x01 x1f)) O
(C x32 (Some (W x65 x1b x20 xb2 xcd x14 x01 x1f)) O
O)))
O)
O)
O)))
O)
O)
(C x37 (Some (W x38 xf5 x9e xd2 x25 xfa x3f xd7)) (C x5f None (C x30 None (C x30 (Some (W x0d x07 x26 x74 x82 xf4 xe3 x2a)) (C x5f None (C x30 None (C x30 (Some (W x86 x8d xd6 x33 xcf xfe x41 x29)) O
(C x31 (Some (W x39 x8f xd6 x33 xcf xff x41 x29)) O
(C x32 (Some (W x20 x8a xd6 x33 xcf xfc x41 x29)) O
O)))
O)
O)
(C x31 (Some (W x5a x05 x26 x74 x82 xf3 xe3 x2a)) (C x5f None (C x30 None (C x30 (Some (W x17 x67 x58 xe9 xc3 x94 x79 x52)) O
(C x31 (Some (W x64 x65 x58 xe9 xc3 x93 x79 x52)) O
(C x32 (Some (W x7d x6a x58 xe9 xc3 x96 x79 x52)) O
O)))
O)
O)
(C x32 (Some (W xa7 x03 x26 x74 x82 xf2 xe3 x2a)) (C x5f None (C x30 None (C x30 (Some (W xa8 xd5 xee xc1 xbe xca xd1 x50)) O
(C x31 (Some (W x5b xd7 xee xc1 xbe xcb xd1 x50)) O
(C x32 (Some (W x0e xd9 xee xc1 xbe xcc xd1 x50)) O
O)))
O)
O)
O)))
O)
O)
(C x38 (Some (W x85 xf3 x9e xd2 x25 xf9 x3f xd7)) (C x5f None (C x30 None (C x30 (Some (W x7e xaa xa6 xd7 x7a xaa x37 xd3)) (C x5f None (C x30 None (C x30 (Some (W x0b x43 x15 x71 x11 xff x48 x7d)) O
(C x31 (Some (W x58 x41 x15 x71 x11 xfe x48 x7d)) O
(C x32 (Some (W x71 x46 x15 x71 x11 x01 x49 x7d)) O
O)))
O)
O)
(C x31 (Some (W x31 xac xa6 xd7 x7a xab x37 xd3)) (C x5f None (C x30 None (C x30 (Some (W xba x03 x7e xba x1c x09 xcb x52)) O
(C x31 (Some (W x6d x05 x7e xba x1c x0a xcb x52)) O
(C x32 (Some (W x54 x00 x7e xba x1c x07 xcb x52)) O
O)))
O)
O)
(C x32 (Some (W x18 xa7 xa6 xd7 x7a xa8 x37 xd3)) (C x5f None (C x30 None (C x30 (Some (W xad xe0 x2c x73 x03 x4b x96 xf9)) O
(C x31 (Some (W xfa xde x2c x73 x03 x4a x96 xf9)) O
(C x32 (Some (W x47 xdd x2c x73 x03 x49 x96 xf9)) O
O)))
O)
O)
O)))
O)
O)
(C x39 (Some (W xd2 xf1 x9e xd2 x25 xf8 x3f xd7)) (C x5f None (C x30 None (C x30 (Some (W x4f xc3 x3e x8e x6f x20 xb6 xfd)) (C x5f None (C x30 None (C x30 (Some (W x90 xe5 x5b x8c x54 x6f x5e x9c)) O
(C x31 (Some (W x43 xe7 x5b x8c x54 x70 x5e x9c)) O
(C x32 (Some (W xf6 xe8 x5b x8c x54 x71 x5e x9c)) O
O)))
O)
O)
(C x31 (Some (W x9c xc1 x3e x8e x6f x1f xb6 xfd)) (C x5f None (C x30 None (C x30 (Some (W xa1 xfe x4d x2b x4e x05 xc4 x70)) O
(C x31 (Some (W xee xfc x4d x2b x4e x04 xc4 x70)) O
(C x32 (Some (W x3b xfb x4d x2b x4e x03 xc4 x70)) O
O)))
O)
O)
(C x32 (Some (W xb5 xc6 x3e x8e x6f x22 xb6 xfd)) (C x5f None (C x30 None (C x30 (Some (W xae x21 x9f x72 x67 xc3 xf8 xc9)) O
(C x31 (Some (W x61 x23 x9f x72 x67 xc4 xf8 xc9)) O
(C x32 (Some (W x48 x1e x9f x72 x67 xc1 xf8 xc9)) O
O)))
O)
O)
O)))
O)
O)
O))))))))))
(C x31 None (C x30 (Some (W x94 xe7 x9b xd2 x25 x7b x3c xd7)) (C x5f None (C x30 None (C x30 (Some (W x59 x55 xc1 xb1 x87 x7c xbf xc2)) (C x5f None (C x30 None (C x30 (Some (W x22 x0c x5f x5e xc9 xed xdb xc4)) O
(C x31 (Some (W xd5 x0d x5f x5e xc9 xee xdb xc4)) O
(C x32 (Some (W xbc x08 x5f x5e xc9 xeb xdb xc4)) O
O)))
O)
O)
(C x31 (Some (W xa6 x53 xc1 xb1 x87 x7b xbf xc2)) (C x5f None (C x30 None (C x30 (Some (W x13 x73 x51 x37 xc4 xa3 xa0 xc3)) O
(C x31 (Some (W x60 x71 x51 x37 xc4 xa2 xa0 xc3)) O
(C x32 (Some (W x79 x76 x51 x37 xc4 xa5 xa0 xc3)) O
O)))
O)
O)
(C x32 (Some (W xf3 x51 xc1 xb1 x87 x7a xbf xc2)) (C x5f None (C x30 None (C x30 (Some (W xc4 xe8 xe8 xed xb8 xb9 x1e xee)) O
(C x31 (Some (W x77 xea xe8 xed xb8 xba x1e xee)) O
(C x32 (Some (W x2a xec xe8 xed xb8 xbb x1e xee)) O
O)))
O)
O)
O)))
O)
O)
(C x31 (Some (W x47 xe9 x9b xd2 x25 x7c x3c xd7)) (C x5f None (C x30 None (C x30 (Some (W x88 xff x9c x14 x8e x86 x79 xf0)) (C x5f None (C x30 None (C x30 (Some (W x5d x84 xe5 xc1 x05 xa4 x46 xe3)) O
(C x31 (Some (W xaa x82 xe5 xc1 x05 xa3 x46 xe3)) O
(C x32 (Some (W xf7 x80 xe5 xc1 x05 xa2 x46 xe3)) O
O)))
O)
O)
(C x31 (Some (W x3b x01 x9d x14 x8e x87 x79 xf0)) (C x5f None (C x30 None (C x30 (Some (W x6c x0e x4f x5d x0d x4e xac x39)) O
(C x31 (Some (W x1f x10 x4f x5d x0d x4f xac x39)) O
(C x32 (Some (W xd2 x11 x4f x5d x0d x50 xac x39)) O
O)))
O)
O)
(C x32 (Some (W xee x02 x9d x14 x8e x88 x79 xf0)) (C x5f None (C x30 None (C x30 (Some (W xbb xe6 xcd xbf x13 x58 xf9 x66)) O
(C x31 (Some (W x08 xe5 xcd xbf x13 x57 xf9 x66)) O
(C x32 (Some (W x21 xea xcd xbf x13 x5a xf9 x66)) O
O)))
O)
O)
O)))
O)
O)
(C x32 (Some (W xfa xea x9b xd2 x25 x7d x3c xd7)) (C x5f None (C x30 None (C x30 (Some (W xf7 xbf x06 xb0 x95 x50 xdf x46)) (C x5f None (C x30 None (C x30 (Some (W xb8 x38 xb8 xd6 xb8 xf1 x4b xfa)) O
(C x31 (Some (W x6b x3a xb8 xd6 xb8 xf2 x4b xfa)) O
(C x32 (Some (W x1e x3c xb8 xd6 xb8 xf3 x4b xfa)) O
O)))
O)
O)
(C x31 (Some (W x44 xbe x06 xb0 x95 x4f xdf x46)) (C x5f None (C x30 None (C x30 (Some (W x49 x78 x4e x3b xb1 x27 xe6 xa3)) O
(C x31 (Some (W x96 x76 x4e x3b xb1 x26 xe6 xa3)) O
(C x32 (Some (W xe3 x74 x4e x3b xb1 x25 xe6 xa3)) O
O)))
O)
O)
(C x32 (Some (W x5d xc3 x06 xb0 x95 x52 xdf x46)) (C x5f None (C x30 None (C x30 (Some (W x96 xf0 x9f x48 xc9 x25 xbc xd2)) O
(C x31 (Some (W x49 xf2 x9f x48 xc9 x26 xbc xd2)) O
(C x32 (Some (W x30 xed x9f x48 xc9 x23 xbc xd2)) O
O)))
O)
O)
O)))
O)
O)
(C x33 (Some (W xad xec x9b xd2 x25 x7e x3c xd7)) (C x5f None (C x30 None (C x30 (Some (W x66 x78 x12 xf9 xa0 x3a xf4 x1b)) (C x5f None (C x30 None (C x30 (Some (W xd3 x29 x3c x12 x32 xbd x0e x6f)) O
(C x31 (Some (W x20 x28 x3c x12 x32 xbc x0e x6f)) O
(C x32 (Some (W x39 x2d x3c x12 x32 xbf x0e x6f)) O
O)))
O)
O)
(C x31 (Some (W x19 x7a x12 xf9 xa0 x3b xf4 x1b)) (C x5f None (C x30 None (C x30 (Some (W xe2 x6d x48 x21 x3c x07 xc5 x19)) O
(C x31 (Some (W x95 x6f x48 x21 x3c x08 xc5 x19)) O
(C x32 (Some (W x7c x6a x48 x21 x3c x05 xc5 x19)) O
O)))
O)
O)
(C x32 (Some (W x00 x75 x12 xf9 xa0 x38 xf4 x1b)) (C x5f None (C x30 None (C x30 (Some (W x75 xc7 x53 x14 x24 x09 x5c xeb)) O
(C x31 (Some (W xc2 xc5 x53 x14 x24 x08 x5c xeb)) O
(C x32 (Some (W x0f xc4 x53 x14 x24 x07 x5c xeb)) O
O)))
O)
O)
O)))
O)
O)
(C x34 (Some (W xc8 xe0 x9b xd2 x25 x77 x3c xd7)) (C x5f None (C x30 None (C x30 (Some (W x9d x24 x64 x5b x64 x94 xd4 xbe)) (C x5f None (C x30 None (C x30 (Some (W xd6 xbb x3c x9b xa6 x7f xbb x4c)) O
(C x31 (Some (W x89 xbd x3c x9b xa6 x80 xbb x4c)) O
(C x32 (Some (W x70 xb8 x3c x9b xa6 x7d xbb x4c)) O
O)))
O)
O)
(C x31 (Some (W xea x22 x64 x5b x64 x93 xd4 xbe)) (C x5f None (C x30 None (C x30 (Some (W x27 xae x30 x8c x9c x55 x05 xa2)) O
(C x31 (Some (W x74 xac x30 x8c x9c x54 x05 xa2)) O
(C x32 (Some (W x8d xb1 x30 x8c x9c x57 x05 xa2)) O
O)))
O)
O)
(C x32 (Some (W x37 x21 x64 x5b x64 x92 xd4 xbe)) (C x5f None (C x30 None (C x30 (Some (W xf8 x03 x55 x29 x96 x4b x4b x74)) O
(C x31 (Some (W xab x05 x55 x29 x96 x4c x4b x74)) O
(C x32 (Some (W x5e x07 x55 x29 x96 x4d x4b x74)) O
O)))
O)
O)
O)))
O)
O)
(C x35 (Some (W x7b xe2 x9b xd2 x25 x78 x3c xd7)) (C x5f None (C x30 None (C x30 (Some (W xac xae xcd xf6 x6b x3e x3a x15)) (C x5f None (C x30 None (C x30 (Some (W x31 x72 x0f x98 x52 xec x60 xe4)) O
(C x31 (Some (W x7e x70 x0f x98 x52 xeb x60 xe4)) O
(C x32 (Some (W xcb x6e x0f x98 x52 xea x60 xe4)) O
O)))
O)
O)
(C x31 (Some (W x5f xb0 xcd xf6 x6b x3f x3a x15)) (C x5f None (C x30 None (C x30 (Some (W xe0 x42 x8f xc0 x57 x96 x4f xe7)) O
(C x31 (Some (W x93 x44 x8f xc0 x57 x97 x4f xe7)) O
(C x32 (Some (W x46 x46 x8f xc0 x57 x98 x4f xe7)) O
O)))
O)
O)
(C x32 (Some (W x12 xb2 xcd xf6 x6b x40 x3a x15)) (C x5f None (C x30 None (C x30 (Some (W x8f x03 xf8 x09 x63 xa0 xd1 xbc)) O
(C x31 (Some (W xdc x01 xf8 x09 x63 x9f xd1 xbc)) O
(C x32 (Some (W xf5 x06 xf8 x09 x63 xa2 xd1 xbc)) O
O)))
O)
O)
O)))
O)
O)
(C x36 (Some (W x2e xe4 x9b xd2 x25 x79 x3c xd7)) (C x5f None (C x30 None (C x30 (Some (W xfb x31 x4b x41 x77 x48 x02 xec)) (C x5f None (C x30 None (C x30 (Some (W x2c xc9 x48 x93 x11 x4e xf5 x2f)) O
(C x31 (Some (W xdf xca x48 x93 x11 x4f xf5 x2f)) O
(C x32 (Some (W x92 xcc x48 x93 x11 x50 xf5 x2f)) O
O)))
O)
O)
(C x31 (Some (W x48 x30 x4b x41 x77 x47 x02 xec)) (C x5f None (C x30 None (C x30 (Some (W x1d x3f xdf xf7 x09 xa4 x8f xd9)) O
(C x31 (Some (W x6a x3d xdf xf7 x09 xa3 x8f xd9)) O
(C x32 (Some (W xb7 x3b xdf xf7 x09 xa2 x8f xd9)) O
O)))
O)
O)
(C x32 (Some (W x61 x35 x4b x41 x77 x4a x02 xec)) (C x5f None (C x30 None (C x30 (Some (W x2a x62 x30 x3f x23 x62 xc4 x32)) O
(C x31 (Some (W xdd x63 x30 x3f x23 x63 xc4 x32)) O
(C x32 (Some (W xc4 x5e x30 x3f x23 x60 xc4 x32)) O
O)))
O)
O)
O)))
O)
O)
(C x37 (Some (W xe1 xe5 x9b xd2 x25 x7a x3c xd7)) (C x5f None (C x30 None (C x30 (Some (W xaa x47 xb5 xa2 x7d x52 x09 x18)) (C x5f None (C x30 None (C x30 (Some (W xe7 x0f x1a x4f x0f x6f xee xf6)) O
(C x31 (Some (W x34 x0e x1a x4f x0f x6e xee xf6)) O
(C x32 (Some (W x4d x13 x1a x4f x0f x71 xee xf6)) O
O)))
O)
O)
(C x31 (Some (W x5d x49 xb5 xa2 x7d x53 x09 x18)) (C x5f None (C x30 None (C x30 (Some (W x96 x72 x27 x76 x14 x99 x29 xf8)) O
(C x31 (Some (W x49 x74 x27 x76 x14 x9a x29 xf8)) O
(C x32 (Some (W x30 x6f x27 x76 x14 x97 x29 xf8)) O
O)))
O)
O)
(C x32 (Some (W x44 x44 xb5 xa2 x7d x50 x09 x18)) (C x5f None (C x30 None (C x30 (Some (W x49 xfa xd5 x68 xfc x9a x53 xc9)) O
(C x31 (Some (W x96 xf8 xd5 x68 xfc x99 x53 xc9)) O
(C x32 (Some (W xe3 xf6 xd5 x68 xfc x98 x53 xc9)) O
O)))
O)
O)
O)))
O)
O)
(C x38 (Some (W xfc xd9 x9b xd2 x25 x73 x3c xd7)) (C x5f None (C x30 None (C x30 (Some (W xc1 xd3 x94 x3d x42 x4c x95 xe3)) (C x5f None (C x30 None (C x30 (Some (W x4a x35 x67 x37 xf2 x27 x77 x23)) O
(C x31 (Some (W xfd x36 x67 x37 xf2 x28 x77 x23)) O
(C x32 (Some (W xe4 x31 x67 x37 xf2 x25 x77 x23)) O
O)))
O)
O)
(C x31 (Some (W x0e xd2 x94 x3d x42 x4b x95 xe3)) (C x5f None (C x30 None (C x30 (Some (W x1b xf9 xfd xd5 xeb x9d x70 xf7)) O
(C x31 (Some (W x68 xf7 xfd xd5 xeb x9c x70 xf7)) O
(C x32 (Some (W x81 xfc xfd xd5 xeb x9f x70 xf7)) O
O)))
O)
O)
(C x32 (Some (W x5b xd0 x94 x3d x42 x4a x95 xe3)) (C x5f None (C x30 None (C x30 (Some (W xcc x30 xf1 x8c xe0 x13 x5b x22)) O
(C x31 (Some (W x7f x32 xf1 x8c xe0 x14 x5b x22)) O
(C x32 (Some (W x32 x34 xf1 x8c xe0 x15 x5b x22)) O
O)))
O)
O)
O)))
O)
O)
(C x39 (Some (W xaf xdb x9b xd2 x25 x74 x3c xd7)) (C x5f None (C x30 None (C x30 (Some (W xb0 x20 x12 x88 x4d x36 x5d xba)) (C x5f None (C x30 None (C x30 (Some (W xa5 x02 xa0 x54 xab x48 x0a x1a)) O
(C x31 (Some (W xf2 x00 xa0 x54 xab x47 x0a x1a)) O
(C x32 (Some (W x3f xff x9f x54 xab x46 x0a x1a)) O
O)))
O)
O)
(C x31 (Some (W x63 x22 x12 x88 x4d x37 x5d xba)) (C x5f None (C x30 None (C x30 (Some (W xf4 x1f xae xb5 xb1 xd2 xa4 x45)) O
(C x31 (Some (W xa7 x21 xae xb5 xb1 xd3 xa4 x45)) O
(C x32 (Some (W x5a x23 xae xb5 xb1 xd4 xa4 x45)) O
O)))
O)
O)
(C x32 (Some (W x16 x24 x12 x88 x4d x38 x5d xba)) (C x5f None (C x30 None (C x30 (Some (W x03 x94 x88 xc6 xbb xfc x7a xf2)) O
(C x31 (Some (W x50 x92 x88 xc6 xbb xfb x7a xf2)) O
(C x32 (Some (W x69 x97 x88 xc6 xbb xfe x7a xf2)) O
O)))
O)
O)
O)))
O)
O)
O))))))))))
(C x32 None (C x30 (Some (W xcf xfd xa4 xd2 x25 xed x46 xd7)) (C x5f None (C x30 None (C x30 (Some (W x10 xf9 x2f x74 x1a xd6 x58 xe9)) (C x5f None (C x30 None (C x30 (Some (W x45 x6d x26 x67 x22 xbf xc1 xb7)) O
(C x31 (Some (W x92 x6b x26 x67 x22 xbe xc1 xb7)) O
(C x32 (Some (W xdf x69 x26 x67 x22 xbd xc1 xb7)) O
O)))
O)
O)
(C x31 (Some (W xc3 xfa x2f x74 x1a xd7 x58 xe9)) (C x5f None (C x30 None (C x30 (Some (W x94 x45 xa5 xc9 x28 xc9 x0e xe5)) O
(C x31 (Some (W x47 x47 xa5 xc9 x28 xca x0e xe5)) O
(C x32 (Some (W xfa x48 xa5 xc9 x28 xcb x0e xe5)) O
O)))
O)
O)
(C x32 (Some (W x76 xfc x2f x74 x1a xd8 x58 xe9)) (C x5f None (C x30 None (C x30 (Some (W xa3 xcf x0e x65 x30 x73 x74 x3b)) O
(C x31 (Some (W xf0 xcd x0e x65 x30 x72 x74 x3b)) O
(C x32 (Some (W x09 xd3 x0e x65 x30 x75 x74 x3b)) O
O)))
O)
O)
O)))
O)
O)
(C x31 (Some (W x1c xfc xa4 xd2 x25 xec x46 xd7)) (C x5f None (C x30 None (C x30 (Some (W x21 x12 x22 x13 x14 x6c xbe xbd)) (C x5f None (C x30 None (C x30 (Some (W xea xab xfb x3d x6d xe2 x1e x08)) O
(C x31 (Some (W x9d xad xfb x3d x6d xe3 x1e x08)) O
(C x32 (Some (W x84 xa8 xfb x3d x6d xe0 x1e x08)) O
O)))
O)
O)
(C x31 (Some (W x6e x10 x22 x13 x14 x6b xbe xbd)) (C x5f None (C x30 None (C x30 (Some (W x3b xeb x92 xf4 x61 xd8 x9c x32)) O
(C x31 (Some (W x88 xe9 x92 xf4 x61 xd7 x9c x32)) O
(C x32 (Some (W xa1 xee x92 xf4 x61 xda x9c x32)) O
O)))
O)
O)
(C x32 (Some (W xbb x0e x22 x13 x14 x6a xbe xbd)) (C x5f None (C x30 None (C x30 (Some (W xec x12 x14 x92 x5b xce x4f x05)) O
(C x31 (Some (W x9f x14 x14 x92 x5b xcf x4f x05)) O
(C x32 (Some (W x52 x16 x14 x92 x5b xd0 x4f x05)) O
O)))
O)
O)
O)))
O)
O)
(C x32 (Some (W x35 x01 xa5 xd2 x25 xef x46 xd7)) (C x5f None (C x30 None (C x30 (Some (W x2e x35 x73 x5a x2d x2a xf3 x16)) (C x5f None (C x30 None (C x30 (Some (W xfb x4c x7c xb7 xd4 xf1 x85 x87)) O
(C x31 (Some (W x48 x4b x7c xb7 xd4 xf0 x85 x87)) O
(C x32 (Some (W x61 x50 x7c xb7 xd4 xf3 x85 x87)) O
O)))
O)
O)
(C x31 (Some (W xe1 x36 x73 x5a x2d x2b xf3 x16)) (C x5f None (C x30 None (C x30 (Some (W xaa x62 xe6 x18 xdb xfb x8c xb3)) O
(C x31 (Some (W x5d x64 xe6 x18 xdb xfc x8c xb3)) O
(C x32 (Some (W x44 x5f xe6 x18 xdb xf9 x8c xb3)) O
O)))
O)
O)
(C x32 (Some (W xc8 x31 x73 x5a x2d x28 xf3 x16)) (C x5f None (C x30 None (C x30 (Some (W x9d x3f x95 xd1 xc1 x3d x58 x5a)) O
(C x31 (Some (W xea x3d x95 xd1 xc1 x3c x58 x5a)) O
(C x32 (Some (W x37 x3c x95 xd1 xc1 x3b x58 x5a)) O
O)))
O)
O)
O)))
O)
O)
(C x33 (Some (W x82 xff xa4 xd2 x25 xee x46 xd7)) (C x5f None (C x30 None (C x30 (Some (W xbf x74 x09 xbf x25 x60 x8d xc0)) (C x5f None (C x30 None (C x30 (Some (W x80 xcd x38 xf3 x1d x44 xb1 xef)) O
(C x31 (Some (W x33 xcf x38 xf3 x1d x45 xb1 xef)) O
(C x32 (Some (W xe6 xd0 x38 xf3 x1d x46 xb1 xef)) O
O)))
O)
O)
(C x31 (Some (W x0c x73 x09 xbf x25 x5f x8d xc0)) (C x5f None (C x30 None (C x30 (Some (W x51 x15 x2c x58 x16 x9a xb8 x99)) O
(C x31 (Some (W x9e x13 x2c x58 x16 x99 xb8 x99)) O
(C x32 (Some (W xeb x11 x2c x58 x16 x98 xb8 x99)) O
O)))
O)
O)
(C x32 (Some (W x25 x78 x09 xbf x25 x62 x8d xc0)) (C x5f None (C x30 None (C x30 (Some (W x5e x38 x7d x9f x2f x58 xed xf2)) O
(C x31 (Some (W x11 x3a x7d x9f x2f x59 xed xf2)) O
(C x32 (Some (W xf8 x34 x7d x9f x2f x56 xed xf2)) O
O)))
O)
O)
O)))
O)
O)
(C x34 (Some (W x03 xf7 xa4 xd2 x25 xe9 x46 xd7)) (C x5f None (C x30 None (C x30 (Some (W xd4 x99 xd0 x05 xfc x6d xe8 x8e)) (C x5f None (C x30 None (C x30 (Some (W x99 x90 x90 x92 xbd x7f xc7 x2e)) O
(C x31 (Some (W xe6 x8e x90 x92 xbd x7e xc7 x2e)) O
(C x32 (Some (W x33 x8d x90 x92 xbd x7d xc7 x2e)) O
O)))
O)
O)
(C x31 (Some (W x87 x9b xd0 x05 xfc x6e xe8 x8e)) (C x5f None (C x30 None (C x30 (Some (W xc8 xe5 x6a xdd xc8 x89 xfc x05)) O
(C x31 (Some (W x7b xe7 x6a xdd xc8 x8a xfc x05)) O
(C x32 (Some (W x2e xe9 x6a xdd xc8 x8b xfc x05)) O
O)))
O)
O)
(C x32 (Some (W x3a x9d xd0 x05 xfc x6f xe8 x8e)) (C x5f None (C x30 None (C x30 (Some (W x37 xa6 xd4 x78 xd0 x53 x62 x5c)) O
(C x31 (Some (W x84 xa4 xd4 x78 xd0 x52 x62 x5c)) O
(C x32 (Some (W x9d xa9 xd4 x78 xd0 x55 x62 x5c)) O
O)))
O)
O)
O)))
O)
O)
(C x35 (Some (W x50 xf5 xa4 xd2 x25 xe8 x46 xd7)) (C x5f None (C x30 None (C x30 (Some (W x85 x16 x53 xbb xf0 x63 x20 xb8)) (C x5f None (C x30 None (C x30 (Some (W x7e x0b xb4 x97 xfe x1d xa0 xe3)) O
(C x31 (Some (W x31 x0d xb4 x97 xfe x1e xa0 xe3)) O
(C x32 (Some (W x18 x08 xb4 x97 xfe x1b xa0 xe3)) O
O)))
O)
O)
(C x31 (Some (W xd2 x14 x53 xbb xf0 x62 x20 xb8)) (C x5f None (C x30 None (C x30 (Some (W x4f x24 x4c x4e xf3 x93 x1e x0e)) O
(C x31 (Some (W x9c x22 x4c x4e xf3 x92 x1e x0e)) O
(C x32 (Some (W xb5 x27 x4c x4e xf3 x95 x1e x0e)) O
O)))
O)
O)
(C x32 (Some (W x1f x13 x53 xbb xf0 x61 x20 xb8)) (C x5f None (C x30 None (C x30 (Some (W xa0 x0e xe2 xec xec x89 x17 xe2)) O
(C x31 (Some (W x53 x10 xe2 xec xec x8a x17 xe2)) O
(C x32 (Some (W x06 x12 xe2 xec xec x8b x17 xe2)) O
O)))
O)
O)
O)))
O)
O)
(C x36 (Some (W x69 xfa xa4 xd2 x25 xeb x46 xd7)) (C x5f None (C x30 None (C x30 (Some (W x32 xfc xb8 x03 x0a x22 x9b x12)) (C x5f None (C x30 None (C x30 (Some (W xef x0f xd5 x80 x3f x1b x18 x25)) O
(C x31 (Some (W x3c x0e xd5 x80 x3f x1a x18 x25)) O
(C x32 (Some (W x55 x13 xd5 x80 x3f x1d x18 x25)) O
O)))
O)
O)
(C x31 (Some (W xe5 xfd xb8 x03 x0a x23 x9b x12)) (C x5f None (C x30 None (C x30 (Some (W x1e xba xb0 xe3 x45 x25 xd2 x52)) O
(C x31 (Some (W xd1 xbb xb0 xe3 x45 x26 xd2 x52)) O
(C x32 (Some (W xb8 xb6 xb0 xe3 x45 x23 xd2 x52)) O
O)))
O)
O)
(C x32 (Some (W xcc xf8 xb8 x03 x0a x20 x9b x12)) (C x5f None (C x30 None (C x30 (Some (W x11 x97 x5f x9c x2c x67 x9d xf9)) O
(C x31 (Some (W x5e x95 x5f x9c x2c x66 x9d xf9)) O
(C x32 (Some (W xab x93 x5f x9c x2c x65 x9d xf9)) O
O)))
O)
O)
O)))
O)
O)
(C x37 (Some (W xb6 xf8 xa4 xd2 x25 xea x46 xd7)) (C x5f None (C x30 None (C x30 (Some (W xe3 x23 x3a xa1 x03 x18 x4e xe5)) (C x5f None (C x30 None (C x30 (Some (W x74 x20 x64 x8f x69 x6c x6d xc6)) O
(C x31 (Some (W x27 x22 x64 x8f x69 x6d x6d xc6)) O
(C x32 (Some (W xda x23 x64 x8f x69 x6e x6d xc6)) O
O)))
O)
O)
(C x31 (Some (W x30 x22 x3a xa1 x03 x17 x4e xe5)) (C x5f None (C x30 None (C x30 (Some (W x25 x03 x56 x2e x63 xe2 xd2 x9a)) O
(C x31 (Some (W x72 x01 x56 x2e x63 xe1 xd2 x9a)) O
(C x32 (Some (W xbf xff x55 x2e x63 xe0 xd2 x9a)) O
O)))
O)
O)
(C x32 (Some (W x49 x27 x3a xa1 x03 x1a x4e xe5)) (C x5f None (C x30 None (C x30 (Some (W x52 xd8 x4b x01 x7a xa0 xdd x9e)) O
(C x31 (Some (W x05 xda x4b x01 x7a xa1 xdd x9e)) O
(C x32 (Some (W xec xd4 x4b x01 x7a x9e xdd x9e)) O
O)))
O)
O)
O)))
O)
O)
(C x38 (Some (W x67 x0b xa5 xd2 x25 xf5 x46 xd7)) (C x5f None (C x30 None (C x30 (Some (W x68 x2d xba x74 x5d xa6 x32 x74)) (C x5f None (C x30 None (C x30 (Some (W x7d xdc x4e x59 xf1 x33 x72 x77)) O
(C x31 (Some (W xca xda x4e x59 xf1 x32 x72 x77)) O
(C x32 (Some (W x17 xd9 x4e x59 xf1 x31 x72 x77)) O
O)))
O)
O)
(C x31 (Some (W x1b x2f xba x74 x5d xa7 x32 x74)) (C x5f None (C x30 None (C x30 (Some (W x8c x50 x29 x6a xfb x5d x48 x24)) O
(C x31 (Some (W x3f x52 x29 x6a xfb x5e x48 x24)) O
(C x32 (Some (W xf2 x53 x29 x6a xfb x5f x48 x24)) O
O)))
O)
O)
(C x32 (Some (W xce x30 xba x74 x5d xa8 x32 x74)) (C x5f None (C x30 None (C x30 (Some (W xdb x6d x37 xcb x01 xe8 xe2 x4f)) O
(C x31 (Some (W x28 x6c x37 xcb x01 xe7 xe2 x4f)) O
(C x32 (Some (W x41 x71 x37 xcb x01 xea xe2 x4f)) O
O)))
O)
O)
O)))
O)
O)
(C x39 (Some (W xb4 x09 xa5 xd2 x25 xf4 x46 xd7)) (C x5f None (C x30 None (C x30 (Some (W xb9 x17 x50 x13 x57 x9c x2b x48)) (C x5f None (C x30 None (C x30 (Some (W xc2 xae xee x86 xf8 x92 xa7 x5b)) O
(C x31 (Some (W x75 xb0 xee x86 xf8 x93 xa7 x5b)) O
(C x32 (Some (W x5c xab xee x86 xf8 x90 xa7 x5b)) O
O)))
O)
O)
(C x31 (Some (W x06 x16 x50 x13 x57 x9b x2b x48)) (C x5f None (C x30 None (C x30 (Some (W x33 x52 x6f xea xf0 x48 xfb x03)) O
(C x31 (Some (W x80 x50 x6f xea xf0 x47 xfb x03)) O
(C x32 (Some (W x99 x55 x6f xea xf0 x4a xfb x03)) O
O)))
O)
O)
(C x32 (Some (W x53 x14 x50 x13 x57 x9a x2b x48)) (C x5f None (C x30 None (C x30 (Some (W xe4 xc7 x06 xa1 xe5 x5e x79 x2e)) O
(C x31 (Some (W x97 xc9 x06 xa1 xe5 x5f x79 x2e)) O
(C x32 (Some (W x4a xcb x06 xa1 xe5 x60 x79 x2e)) O
O)))
O)
O)
O)))
O)
O)
O))))))))))
(C x33 None (C x30 (Some (W x46 xe4 xa1 xd2 x25 x67 x43 xd7)) (C x5f None (C x30 None (C x30 (Some (W x73 x41 x78 x88 xe5 xb7 x3e x79)) (C x5f None (C x30 None (C x30 (Some (W x44 xe3 x3b xf8 x40 xed x99 xeb)) O
(C x31 (Some (W xf7 xe4 x3b xf8 x40 xee x99 xeb)) O
(C x32 (Some (W xaa xe6 x3b xf8 x40 xef x99 xeb)) O
O)))
O)
O)
(C x31 (Some (W xc0 x3f x78 x88 xe5 xb6 x3e x79)) (C x5f None (C x30 None (C x30 (Some (W x35 x60 xbd x5b x39 x23 xee x93)) O
(C x31 (Some (W x82 x5e xbd x5b x39 x22 xee x93)) O
(C x32 (Some (W xcf x5c xbd x5b x39 x21 xee x93)) O
O)))
O)
O)
(C x32 (Some (W xd9 x44 x78 x88 xe5 xb9 x3e x79)) (C x5f None (C x30 None (C x30 (Some (W xa2 x06 xb2 x68 x51 x21 x57 xc2)) O
(C x31 (Some (W x55 x08 xb2 x68 x51 x22 x57 xc2)) O
(C x32 (Some (W x3c x03 xb2 x68 x51 x1f x57 xc2)) O
O)))
O)
O)
O)))
O)
O)
(C x31 (Some (W xf9 xe5 xa1 xd2 x25 x68 x43 xd7)) (C x5f None (C x30 None (C x30 (Some (W x02 x9e xf7 x24 xed x01 xeb xd0)) (C x5f None (C x30 None (C x30 (Some (W x3f x54 xfc xba xfe x6c x92 x97)) O
(C x31 (Some (W x8c x52 xfc xba xfe x6b x92 x97)) O
(C x32 (Some (W xa5 x57 xfc xba xfe x6e x92 x97)) O
O)))
O)
O)
(C x31 (Some (W xb5 x9f xf7 x24 xed x02 xeb xd0)) (C x5f None (C x30 None (C x30 (Some (W xae x14 x66 x56 x06 x37 xf8 xed)) O
(C x31 (Some (W x61 x16 x66 x56 x06 x38 xf8 xed)) O
(C x32 (Some (W x48 x11 x66 x56 x06 x35 xf8 xed)) O
O)))
O)
O)
(C x32 (Some (W x9c x9a xf7 x24 xed xff xea xd0)) (C x5f None (C x30 None (C x30 (Some (W xa1 xf1 x14 x0f xed x78 xc3 x94)) O
(C x31 (Some (W xee xef x14 x0f xed x77 xc3 x94)) O
(C x32 (Some (W x3b xee x14 x0f xed x76 xc3 x94)) O
O)))
O)
O)
O)))
O)
O)
(C x32 (Some (W xe0 xe0 xa1 xd2 x25 x65 x43 xd7)) (C x5f None (C x30 None (C x30 (Some (W x15 x1e x02 x18 xd5 x83 x81 xa2)) (C x5f None (C x30 None (C x30 (Some (W x4e x61 xb3 x9f x8b xcd xbd xa9)) O
(C x31 (Some (W x01 x63 xb3 x9f x8b xce xbd xa9)) O
(C x32 (Some (W xe8 x5d xb3 x9f x8b xcb xbd xa9)) O
O)))
O)
O)
(C x31 (Some (W x62 x1c x02 x18 xd5 x82 x81 xa2)) (C x5f None (C x30 None (C x30 (Some (W x5f x4b x4a x90 x81 x83 x9a xfe)) O
(C x31 (Some (W xac x49 x4a x90 x81 x82 x9a xfe)) O
(C x32 (Some (W xc5 x4e x4a x90 x81 x85 x9a xfe)) O
O)))
O)
O)
(C x32 (Some (W xaf x1a x02 x18 xd5 x81 x81 xa2)) (C x5f None (C x30 None (C x30 (Some (W xb0 x35 xe0 x2e x7b x79 x93 xd2)) O
(C x31 (Some (W x63 x37 xe0 x2e x7b x7a x93 xd2)) O
(C x32 (Some (W x16 x39 xe0 x2e x7b x7b x93 xd2)) O
O)))
O)
O)
O)))
O)
O)
(C x33 (Some (W x93 xe2 xa1 xd2 x25 x66 x43 xd7)) (C x5f None (C x30 None (C x30 (Some (W x24 x62 x0e x27 xdf xcd x37 x4d)) (C x5f None (C x30 None (C x30 (Some (W x69 xbb xd9 x25 x54 xcd xa9 xf8)) O
(C x31 (Some (W xb6 xb9 xd9 x25 x54 xcc xa9 xf8)) O
(C x32 (Some (W x03 xb8 xd9 x25 x54 xcb xa9 xf8)) O
O)))
O)
O)
(C x31 (Some (W xd7 x63 x0e x27 xdf xce x37 x4d)) (C x5f None (C x30 None (C x30 (Some (W xd8 x4c x43 x4d x59 x97 x51 xfa)) O
(C x31 (Some (W x8b x4e x43 x4d x59 x98 x51 xfa)) O
(C x32 (Some (W x3e x50 x43 x4d x59 x99 x51 xfa)) O
O)))
O)
O)
(C x32 (Some (W x8a x65 x0e x27 xdf xcf x37 x4d)) (C x5f None (C x30 None (C x30 (Some (W x87 x0d xac x96 x64 xa1 xd3 xcf)) O
(C x31 (Some (W xd4 x0b xac x96 x64 xa0 xd3 xcf)) O
(C x32 (Some (W xed x10 xac x96 x64 xa3 xd3 xcf)) O
O)))
O)
O)
O)))
O)
O)
(C x34 (Some (W x12 xeb xa1 xd2 x25 x6b x43 xd7)) (C x5f None (C x30 None (C x30 (Some (W x8f x16 x48 xe0 x08 x40 xdd x7e)) (C x5f None (C x30 None (C x30 (Some (W xd0 x56 xef x2b xdd x15 x79 x60)) O
(C x31 (Some (W x83 x58 xef x2b xdd x16 x79 x60)) O
(C x32 (Some (W x36 x5a xef x2b xdd x17 x79 x60)) O
O)))
O)
O)
(C x31 (Some (W xdc x14 x48 xe0 x08 x3f xdd x7e)) (C x5f None (C x30 None (C x30 (Some (W xe1 xc4 xe2 xe2 xd1 xab x63 x8b)) O
(C x31 (Some (W x2e xc3 xe2 xe2 xd1 xaa x63 x8b)) O
(C x32 (Some (W x7b xc1 xe2 xe2 xd1 xa9 x63 x8b)) O
O)))
O)
O)
(C x32 (Some (W xf5 x19 x48 xe0 x08 x42 xdd x7e)) (C x5f None (C x30 None (C x30 (Some (W xee xe7 x33 x2a xeb x69 x98 xe4)) O
(C x31 (Some (W xa1 xe9 x33 x2a xeb x6a x98 xe4)) O
(C x32 (Some (W x88 xe4 x33 x2a xeb x67 x98 xe4)) O
O)))
O)
O)
O)))
O)
O)
(C x35 (Some (W xc5 xec xa1 xd2 x25 x6c x43 xd7)) (C x5f None (C x30 None (C x30 (Some (W xbe x52 xb1 x41 x0f xca xe3 xaa)) (C x5f None (C x30 None (C x30 (Some (W x4b x7b xe2 x1e xac x72 xff xaa)) O
(C x31 (Some (W x98 x79 xe2 x1e xac x71 xff xaa)) O
(C x32 (Some (W xb1 x7e xe2 x1e xac x74 xff xaa)) O
O)))
O)
O)
(C x31 (Some (W x71 x54 xb1 x41 x0f xcb xe3 xaa)) (C x5f None (C x30 None (C x30 (Some (W xfa x90 x4c x80 xb2 x7c x06 xd7)) O
(C x31 (Some (W xad x92 x4c x80 xb2 x7d x06 xd7)) O
(C x32 (Some (W x94 x8d x4c x80 xb2 x7a x06 xd7)) O
O)))
O)
O)
(C x32 (Some (W x58 x4f xb1 x41 x0f xc8 xe3 xaa)) (C x5f None (C x30 None (C x30 (Some (W xed x6d xfb x38 x99 xbe xd1 x7d)) O
(C x31 (Some (W x3a x6c xfb x38 x99 xbd xd1 x7d)) O
(C x32 (Some (W x87 x6a xfb x38 x99 xbc xd1 x7d)) O
O)))
O)
O)
O)))
O)
O)
(C x36 (Some (W xac xe7 xa1 xd2 x25 x69 x43 xd7)) (C x5f None (C x30 None (C x30 (Some (W x31 x85 x5f x6e xf8 x8b x6c xa6)) (C x5f None (C x30 None (C x30 (Some (W xba xf6 x44 x9e xbb x7c xca x76)) O
(C x31 (Some (W x6d xf8 x44 x9e xbb x7d xca x76)) O
(C x32 (Some (W x54 xf3 x44 x9e xbb x7a xca x76)) O
O)))
O)
O)
(C x31 (Some (W x7e x83 x5f x6e xf8 x8a x6c xa6)) (C x5f None (C x30 None (C x30 (Some (W x0b x36 xdc x54 xb0 x72 x48 xa1)) O
(C x31 (Some (W x58 x34 xdc x54 xb0 x71 x48 xa1)) O
(C x32 (Some (W x71 x39 xdc x54 xb0 x74 x48 xa1)) O
O)))
O)
O)
(C x32 (Some (W xcb x81 x5f x6e xf8 x89 x6c xa6)) (C x5f None (C x30 None (C x30 (Some (W xfc xb2 x5d xb8 xa8 xa8 x9c x49)) O
(C x31 (Some (W xaf xb4 x5d xb8 xa8 xa9 x9c x49)) O
(C x32 (Some (W x62 xb6 x5d xb8 xa8 xaa x9c x49)) O
O)))
O)
O)
O)))
O)
O)
(C x37 (Some (W x5f xe9 xa1 xd2 x25 x6a x43 xd7)) (C x5f None (C x30 None (C x30 (Some (W xe0 x55 xdf x96 xfd x35 x5b xa9)) (C x5f None (C x30 None (C x30 (Some (W x15 x45 x25 xba xf2 x21 x9a x2f)) O
(C x31 (Some (W x62 x43 x25 xba xf2 x20 x9a x2f)) O
(C x32 (Some (W xaf x41 x25 xba xf2 x1f x9a x2f)) O
O)))
O)
O)
(C x31 (Some (W x93 x57 xdf x96 xfd x36 x5b xa9)) (C x5f None (C x30 None (C x30 (Some (W x24 x89 x31 xc9 xfc x6b x50 xda)) O
(C x31 (Some (W xd7 x8a x31 xc9 xfc x6c x50 xda)) O
(C x32 (Some (W x8a x8c x31 xc9 xfc x6d x50 xda)) O
O)))
O)
O)
(C x32 (Some (W x46 x59 xdf x96 xfd x37 x5b xa9)) (C x5f None (C x30 None (C x30 (Some (W x73 x68 x9b x2a x03 x56 x57 x06)) O
(C x31 (Some (W xc0 x66 x9b x2a x03 x55 x57 x06)) O
(C x32 (Some (W xd9 x6b x9b x2a x03 x58 x57 x06)) O
O)))
O)
O)
O)))
O)
O)
(C x38 (Some (W xde xf1 xa1 xd2 x25 x6f x43 xd7)) (C x5f None (C x30 None (C x30 (Some (W xab xd2 xa6 x4e x27 x48 x4d xd9)) (C x5f None (C x30 None (C x30 (Some (W x1c x85 x17 x39 x1f x92 x8e x97)) O
(C x31 (Some (W xcf x86 x17 x39 x1f x93 x8e x97)) O
(C x32 (Some (W x82 x88 x17 x39 x1f x94 x8e x97)) O
O)))
O)
O)
(C x31 (Some (W xf8 xd0 xa6 x4e x27 x47 x4d xd9)) (C x5f None (C x30 None (C x30 (Some (W xcd xfa xae xef x13 xa8 x0c xc2)) O
(C x31 (Some (W x1a xf9 xae xef x13 xa7 x0c xc2)) O
(C x32 (Some (W x67 xf7 xae xef x13 xa6 x0c xc2)) O
O)))
O)
O)
(C x32 (Some (W x11 xd6 xa6 x4e x27 x4a x4d xd9)) (C x5f None (C x30 None (C x30 (Some (W x5a x73 xff xaa x2f xe6 xfe x6f)) O
(C x31 (Some (W x0d x75 xff xaa x2f xe7 xfe x6f)) O
(C x32 (Some (W xf4 x6f xff xaa x2f xe4 xfe x6f)) O
O)))
O)
O)
O)))
O)
O)
(C x39 (Some (W x91 xf3 xa1 xd2 x25 x70 x43 xd7)) (C x5f None (C x30 None (C x30 (Some (W xda x27 x81 x99 x32 x52 x82 xb0)) (C x5f None (C x30 None (C x30 (Some (W x97 x72 xf3 x6a x43 x3b xd0 x76)) O
(C x31 (Some (W xe4 x70 xf3 x6a x43 x3a xd0 x76)) O
(C x32 (Some (W xfd x75 xf3 x6a x43 x3d xd0 x76)) O
O)))
O)
O)
(C x31 (Some (W x8d x29 x81 x99 x32 x53 x82 xb0)) (C x5f None (C x30 None (C x30 (Some (W x06 x99 x71 xb5 x4e xa5 x98 x4d)) O
(C x31 (Some (W xb9 x9a x71 xb5 x4e xa6 x98 x4d)) O
(C x32 (Some (W xa0 x95 x71 xb5 x4e xa3 x98 x4d)) O
O)))
O)
O)
(C x32 (Some (W x74 x24 x81 x99 x32 x50 x82 xb0)) (C x5f None (C x30 None (C x30 (Some (W x79 x20 x21 xfa x32 x67 xa6 x9f)) O
(C x31 (Some (W xc6 x1e x21 xfa x32 x66 xa6 x9f)) O
(C x32 (Some (W x13 x1d x21 xfa x32 x65 xa6 x9f)) O
O)))
O)
O)
O)))
O)
O)
O))))))))))
(C x34 None (C x30 (Some (W x79 x74 x93 xd2 x25 x69 x32 xd7)) (C x5f None (C x30 None (C x30 (Some (W x82 xcd x34 x5c x10 xe6 x85 xf1)) (C x5f None (C x30 None (C x30 (Some (W xbf x0e x7c x32 x47 x0e x5a x37)) O
(C x31 (Some (W x0c x0d x7c x32 x47 x0d x5a x37)) O
(C x32 (Some (W x25 x12 x7c x32 x47 x10 x5a x37)) O
O)))
O)
O)
(C x31 (Some (W x35 xcf x34 x5c x10 xe7 x85 xf1)) (C x5f None (C x30 None (C x30 (Some (W x2e xcf xe5 xcd x4e xd8 xbf x8d)) O
(C x31 (Some (W xe1 xd0 xe5 xcd x4e xd9 xbf x8d)) O
(C x32 (Some (W xc8 xcb xe5 xcd x4e xd6 xbf x8d)) O
O)))
O)
O)
(C x32 (Some (W x1c xca x34 x5c x10 xe4 x85 xf1)) (C x5f None (C x30 None (C x30 (Some (W x21 xac x94 x86 x35 x1a x8b x34)) O
(C x31 (Some (W x6e xaa x94 x86 x35 x19 x8b x34)) O
(C x32 (Some (W xbb xa8 x94 x86 x35 x18 x8b x34)) O
O)))
O)
O)
O)))
O)
O)
(C x31 (Some (W xc6 x72 x93 xd2 x25 x68 x32 xd7)) (C x5f None (C x30 None (C x30 (Some (W xf3 x70 xb5 xbf x08 x9c xd9 x99)) (C x5f None (C x30 None (C x30 (Some (W xc4 x9d xbb x6f x89 x8e x61 x8b)) O
(C x31 (Some (W x77 x9f xbb x6f x89 x8f x61 x8b)) O
(C x32 (Some (W x2a xa1 xbb x6f x89 x90 x61 x8b)) O
O)))
O)
O)
(C x31 (Some (W x40 x6f xb5 xbf x08 x9b xd9 x99)) (C x5f None (C x30 None (C x30 (Some (W xb5 x1a x3d xd3 x81 xc4 xb5 x33)) O
(C x31 (Some (W x02 x19 x3d xd3 x81 xc3 xb5 x33)) O
(C x32 (Some (W x4f x17 x3d xd3 x81 xc2 xb5 x33)) O
O)))
O)
O)
(C x32 (Some (W x59 x74 xb5 xbf x08 x9e xd9 x99)) (C x5f None (C x30 None (C x30 (Some (W x22 xc1 x31 xe0 x99 xc2 x1e x62)) O
(C x31 (Some (W xd5 xc2 x31 xe0 x99 xc3 x1e x62)) O
(C x32 (Some (W xbc xbd x31 xe0 x99 xc0 x1e x62)) O
O)))
O)
O)
O)))
O)
O)
(C x32 (Some (W x13 x71 x93 xd2 x25 x67 x32 xd7)) (C x5f None (C x30 None (C x30 (Some (W xa4 x91 x4b x5e x02 xb2 xd2 x6d)) (C x5f None (C x30 None (C x30 (Some (W xe9 x75 x59 x9d x9c x6e x71 x98)) O
(C x31 (Some (W x36 x74 x59 x9d x9c x6d x71 x98)) O
(C x32 (Some (W x83 x72 x59 x9d x9c x6c x71 x98)) O
O)))
O)
O)
(C x31 (Some (W x57 x93 x4b x5e x02 xb3 xd2 x6d)) (C x5f None (C x30 None (C x30 (Some (W x58 x07 xc3 xc4 xa1 x38 x19 x9a)) O
(C x31 (Some (W x0b x09 xc3 xc4 xa1 x39 x19 x9a)) O
(C x32 (Some (W xbe x0a xc3 xc4 xa1 x3a x19 x9a)) O
O)))
O)
O)
(C x32 (Some (W x0a x95 x4b x5e x02 xb4 xd2 x6d)) (C x5f None (C x30 None (C x30 (Some (W x07 xc8 x2b x0e xad x42 x9b x6f)) O
(C x31 (Some (W x54 xc6 x2b x0e xad x41 x9b x6f)) O
(C x32 (Some (W x6d xcb x2b x0e xad x44 x9b x6f)) O
O)))
O)
O)
O)))
O)
O)
(C x33 (Some (W x60 x6f x93 xd2 x25 x66 x32 xd7)) (C x5f None (C x30 None (C x30 (Some (W x95 x4d x3f x4f xf8 x67 x1c xc3)) (C x5f None (C x30 None (C x30 (Some (W xce x1b x33 x17 xd4 x6e x85 x49)) O
(C x31 (Some (W x81 x1d x33 x17 xd4 x6f x85 x49)) O
(C x32 (Some (W x68 x18 x33 x17 xd4 x6c x85 x49)) O
O)))
O)
O)
(C x31 (Some (W xe2 x4b x3f x4f xf8 x66 x1c xc3)) (C x5f None (C x30 None (C x30 (Some (W xdf x05 xca x07 xca x24 x62 x9e)) O
(C x31 (Some (W x2c x04 xca x07 xca x23 x62 x9e)) O
(C x32 (Some (W x45 x09 xca x07 xca x26 x62 x9e)) O
O)))
O)
O)
(C x32 (Some (W x2f x4a x3f x4f xf8 x65 x1c xc3)) (C x5f None (C x30 None (C x30 (Some (W x30 xf0 x5f xa6 xc3 x1a x5b x72)) O
(C x31 (Some (W xe3 xf1 x5f xa6 xc3 x1b x5b x72)) O
(C x32 (Some (W x96 xf3 x5f xa6 xc3 x1c x5b x72)) O
O)))
O)
O)
O)))
O)
O)
(C x34 (Some (W x45 x7b x93 xd2 x25 x6d x32 xd7)) (C x5f None (C x30 None (C x30 (Some (W x3e x82 xee x78 x32 xae x7e xcb)) (C x5f None (C x30 None (C x30 (Some (W xcb x35 x62 x96 xf4 x13 xc7 x4a)) O
(C x31 (Some (W x18 x34 x62 x96 xf4 x12 xc7 x4a)) O
(C x32 (Some (W x31 x39 x62 x96 xf4 x15 xc7 x4a)) O
O)))
O)
O)
(C x31 (Some (W xf1 x83 xee x78 x32 xaf x7e xcb)) (C x5f None (C x30 None (C x30 (Some (W x7a x4b xcc xf7 xfa x1d xce x76)) O
(C x31 (Some (W x2d x4d xcc xf7 xfa x1e xce x76)) O
(C x32 (Some (W x14 x48 xcc xf7 xfa x1b xce x76)) O
O)))
O)
O)
(C x32 (Some (W xd8 x7e xee x78 x32 xac x7e xcb)) (C x5f None (C x30 None (C x30 (Some (W x6d x28 x7b xb0 xe1 x5f x99 x1d)) O
(C x31 (Some (W xba x26 x7b xb0 xe1 x5e x99 x1d)) O
(C x32 (Some (W x07 x25 x7b xb0 xe1 x5d x99 x1d)) O
O)))
O)
O)
O)))
O)
O)
(C x35 (Some (W x92 x79 x93 xd2 x25 x6c x32 xd7)) (C x5f None (C x30 None (C x30 (Some (W x0f x46 x85 x17 x2c x24 x78 x9f)) (C x5f None (C x30 None (C x30 (Some (W x50 x11 x6f xa3 x25 xb7 x40 x00)) O
(C x31 (Some (W x03 x13 x6f xa3 x25 xb8 x40 x00)) O
(C x32 (Some (W xb6 x14 x6f xa3 x25 xb9 x40 x00)) O
O)))
O)
O)
(C x31 (Some (W x5c x44 x85 x17 x2c x23 x78 x9f)) (C x5f None (C x30 None (C x30 (Some (W x61 x7f x62 x5a x1a x4d x2b x2b)) O
(C x31 (Some (W xae x7d x62 x5a x1a x4c x2b x2b)) O
(C x32 (Some (W xfb x7b x62 x5a x1a x4b x2b x2b)) O
O)))
O)
O)
(C x32 (Some (W x75 x49 x85 x17 x2c x26 x78 x9f)) (C x5f None (C x30 None (C x30 (Some (W x6e xa2 xb3 xa1 x33 x0b x60 x84)) O
(C x31 (Some (W x21 xa4 xb3 xa1 x33 x0c x60 x84)) O
(C x32 (Some (W x08 x9f xb3 xa1 x33 x09 x60 x84)) O
O)))
O)
O)
O)))
O)
O)
(C x36 (Some (W xdf x77 x93 xd2 x25 x6b x32 xd7)) (C x5f None (C x30 None (C x30 (Some (W x60 x85 x1c xce x20 x1a xf6 xc9)) (C x5f None (C x30 None (C x30 (Some (W x95 xff xa4 x31 x3b xc3 x61 xcf)) O
(C x31 (Some (W xe2 xfd xa4 x31 x3b xc2 x61 xcf)) O
(C x32 (Some (W x2f xfc xa4 x31 x3b xc1 x61 xcf)) O
O)))
O)
O)
(C x31 (Some (W x13 x87 x1c xce x20 x1b xf6 xc9)) (C x5f None (C x30 None (C x30 (Some (W xa4 x43 xb1 x40 x45 x0d x18 x7a)) O
(C x31 (Some (W x57 x45 xb1 x40 x45 x0e x18 x7a)) O
(C x32 (Some (W x0a x47 xb1 x40 x45 x0f x18 x7a)) O
O)))
O)
O)
(C x32 (Some (W xc6 x88 x1c xce x20 x1c xf6 xc9)) (C x5f None (C x30 None (C x30 (Some (W xf3 x22 x1b xa2 x4b xf7 x1e xa6)) O
(C x31 (Some (W x40 x21 x1b xa2 x4b xf6 x1e xa6)) O
(C x32 (Some (W x59 x26 x1b xa2 x4b xf9 x1e xa6)) O
O)))
O)
O)
O)))
O)
O)
(C x37 (Some (W x2c x76 x93 xd2 x25 x6a x32 xd7)) (C x5f None (C x30 None (C x30 (Some (W xb1 xb4 x9c xa5 x1b x70 x07 xc7)) (C x5f None (C x30 None (C x30 (Some (W x3a xb1 xc4 x15 x04 x1e x92 x16)) O
(C x31 (Some (W xed xb2 xc4 x15 x04 x1f x92 x16)) O
(C x32 (Some (W xd4 xad xc4 x15 x04 x1c x92 x16)) O
O)))
O)
O)
(C x31 (Some (W xfe xb2 x9c xa5 x1b x6f x07 xc7)) (C x5f None (C x30 None (C x30 (Some (W x8b xf0 x5b xcc xf8 x13 x10 x41)) O
(C x31 (Some (W xd8 xee x5b xcc xf8 x12 x10 x41)) O
(C x32 (Some (W xf1 xf3 x5b xcc xf8 x15 x10 x41)) O
O)))
O)
O)
(C x32 (Some (W x4b xb1 x9c xa5 x1b x6e x07 xc7)) (C x5f None (C x30 None (C x30 (Some (W x7c x6d xdd x2f xf1 x49 x64 xe9)) O
(C x31 (Some (W x2f x6f xdd x2f xf1 x4a x64 xe9)) O
(C x32 (Some (W xe2 x70 xdd x2f xf1 x4b x64 xe9)) O
O)))
O)
O)
O)))
O)
O)
(C x38 (Some (W x11 x82 x93 xd2 x25 x71 x32 xd7)) (C x5f None (C x30 None (C x30 (Some (W x5a x57 xbe xd0 x55 x36 x1d xd1)) (C x5f None (C x30 None (C x30 (Some (W x17 x2d x73 xe2 x8b xdc x97 x16)) O
(C x31 (Some (W x64 x2b x73 xe2 x8b xdb x97 x16)) O
(C x32 (Some (W x7d x30 x73 xe2 x8b xde x97 x16)) O
O)))
O)
O)
(C x31 (Some (W x0d x59 xbe xd0 x55 x37 x1d xd1)) (C x5f None (C x30 None (C x30 (Some (W x86 x53 xf1 x2c x97 x46 x60 xed)) O
(C x31 (Some (W x39 x55 xf1 x2c x97 x47 x60 xed)) O
(C x32 (Some (W x20 x50 xf1 x2c x97 x44 x60 xed)) O
O)))
O)
O)
(C x32 (Some (W xf4 x53 xbe xd0 x55 x34 x1d xd1)) (C x5f None (C x30 None (C x30 (Some (W xf9 xda xa0 x71 x7b x08 x6e x3f)) O
(C x31 (Some (W x46 xd9 xa0 x71 x7b x07 x6e x3f)) O
(C x32 (Some (W x93 xd7 xa0 x71 x7b x06 x6e x3f)) O
O)))
O)
O)
O)))
O)
O)
(C x39 (Some (W x5e x80 x93 xd2 x25 x70 x32 xd7)) (C x5f None (C x30 None (C x30 (Some (W x2b x02 xe4 x85 x4a x2c xe8 xf9)) (C x5f None (C x30 None (C x30 (Some (W x9c x3f x97 xb0 x67 x33 x56 x37)) O
(C x31 (Some (W x4f x41 x97 xb0 x67 x34 x56 x37)) O
(C x32 (Some (W x02 x43 x97 xb0 x67 x35 x56 x37)) O
O)))
O)
O)
(C x31 (Some (W x78 x00 xe4 x85 x4a x2b xe8 xf9)) (C x5f None (C x30 None (C x30 (Some (W x4d xb5 x2e x67 x5c x49 xd4 x61)) O
(C x31 (Some (W x9a xb3 x2e x67 x5c x48 xd4 x61)) O
(C x32 (Some (W xe7 xb1 x2e x67 x5c x47 xd4 x61)) O
O)))
O)
O)
(C x32 (Some (W x91 x05 xe4 x85 x4a x2e xe8 xf9)) (C x5f None (C x30 None (C x30 (Some (W xda x2d x7f x22 x78 x87 xc6 x0f)) O
(C x31 (Some (W x8d x2f x7f x22 x78 x88 xc6 x0f)) O
(C x32 (Some (W x74 x2a x7f x22 x78 x85 xc6 x0f)) O
O)))
O)
O)
O)))
O)
O)
O))))))))))
(C x35 None (C x30 (Some (W xf0 x5a x90 xd2 x25 xe3 x2e xd7)) (C x5f None (C x30 None (C x30 (Some (W xe5 x15 x7d x70 xdb xc7 x6b x81)) (C x5f None (C x30 None (C x30 (Some (W x1e xc2 x7c xc2 x65 x3c xec x69)) O
(C x31 (Some (W xd1 xc3 x7c xc2 x65 x3d xec x69)) O
(C x32 (Some (W xb8 xbe x7c xc2 x65 x3a xec x69)) O
O)))
O)
O)
(C x31 (Some (W x32 x14 x7d x70 xdb xc6 x6b x81)) (C x5f None (C x30 None (C x30 (Some (W xef x17 xa1 x5f x5f x32 x32 x3c)) O
(C x31 (Some (W x3c x16 xa1 x5f x5f x31 x32 x3c)) O
(C x32 (Some (W x55 x1b xa1 x5f x5f x34 x32 x3c)) O
O)))
O)
O)
(C x32 (Some (W x7f x12 x7d x70 xdb xc5 x6b x81)) (C x5f None (C x30 None (C x30 (Some (W x40 x57 x38 x16 x54 x28 xb0 x66)) O
(C x31 (Some (W xf3 x58 x38 x16 x54 x29 xb0 x66)) O
(C x32 (Some (W xa6 x5a x38 x16 x54 x2a xb0 x66)) O
O)))
O)
O)
O)))
O)
O)
(C x31 (Some (W xa3 x5c x90 xd2 x25 xe4 x2e xd7)) (C x5f None (C x30 None (C x30 (Some (W x34 xde x89 xb9 xe6 x51 x81 x56)) (C x5f None (C x30 None (C x30 (Some (W x39 x09 x81 x18 x16 x0d x73 x04)) O
(C x31 (Some (W x86 x07 x81 x18 x16 x0c x73 x04)) O
(C x32 (Some (W xd3 x05 x81 x18 x16 x0b x73 x04)) O
O)))
O)
O)
(C x31 (Some (W xe7 xdf x89 xb9 xe6 x52 x81 x56)) (C x5f None (C x30 None (C x30 (Some (W xe8 x1e xeb x79 x1c x17 x7a x30)) O
(C x31 (Some (W x9b x20 xeb x79 x1c x18 x7a x30)) O
(C x32 (Some (W x4e x22 xeb x79 x1c x19 x7a x30)) O
O)))
O)
O)
(C x32 (Some (W x9a xe1 x89 xb9 xe6 x53 x81 x56)) (C x5f None (C x30 None (C x30 (Some (W x57 x5b x53 x89 x26 xe1 x9c xdb)) O
(C x31 (Some (W xa4 x59 x53 x89 x26 xe0 x9c xdb)) O
(C x32 (Some (W xbd x5e x53 x89 x26 xe3 x9c xdb)) O
O)))
O)
O)
O)))
O)
O)
(C x32 (Some (W x56 x5e x90 xd2 x25 xe5 x2e xd7)) (C x5f None (C x30 None (C x30 (Some (W x43 xa7 x65 xe2 xeb x7b xdc x59)) (C x5f None (C x30 None (C x30 (Some (W x14 x7f x26 x50 x87 x75 x9a x53)) O
(C x31 (Some (W xc7 x80 x26 x50 x87 x76 x9a x53)) O
(C x32 (Some (W x7a x82 x26 x50 x87 x77 x9a x53)) O
O)))
O)
O)
(C x31 (Some (W x90 xa5 x65 xe2 xeb x7a xdc x59)) (C x5f None (C x30 None (C x30 (Some (W xc5 xa6 xa7 xed x80 x6b x4d x26)) O
(C x31 (Some (W x12 xa5 xa7 xed x80 x6a x4d x26)) O
(C x32 (Some (W x5f xa3 xa7 xed x80 x69 x4d x26)) O
O)))
O)
O)
(C x32 (Some (W xa9 xaa x65 xe2 xeb x7d xdc x59)) (C x5f None (C x30 None (C x30 (Some (W x72 x8c x0d x36 x9a x29 xc8 x80)) O
(C x31 (Some (W x25 x8e x0d x36 x9a x2a xc8 x80)) O
(C x32 (Some (W x0c x89 x0d x36 x9a x27 xc8 x80)) O
O)))
O)
O)
O)))
O)
O)
(C x33 (Some (W x09 x60 x90 xd2 x25 xe6 x2e xd7)) (C x5f None (C x30 None (C x30 (Some (W x12 x96 x71 x2b xf7 x85 xf1 x2e)) (C x5f None (C x30 None (C x30 (Some (W x8f x4f xa9 x8b x0c x42 x38 xf1)) O
(C x31 (Some (W xdc x4d xa9 x8b x0c x41 x38 xf1)) O
(C x32 (Some (W xf5 x52 xa9 x8b x0c x44 x38 xf1)) O
O)))
O)
O)
(C x31 (Some (W xc5 x97 x71 x2b xf7 x86 xf1 x2e)) (C x5f None (C x30 None (C x30 (Some (W xbe x8b x12 xed x12 xcc x3e x1d)) O
(C x31 (Some (W x71 x8d x12 xed x12 xcd x3e x1d)) O
(C x32 (Some (W x58 x88 x12 xed x12 xca x3e x1d)) O
O)))
O)
O)
(C x32 (Some (W xac x92 x71 x2b xf7 x83 xf1 x2e)) (C x5f None (C x30 None (C x30 (Some (W x31 xbe xc0 x19 xfc x8d xc7 x18)) O
(C x31 (Some (W x7e xbc xc0 x19 xfc x8c xc7 x18)) O
(C x32 (Some (W xcb xba xc0 x19 xfc x8b xc7 x18)) O
O)))
O)
O)
O)))
O)
O)
(C x34 (Some (W xbc x61 x90 xd2 x25 xe7 x2e xd7)) (C x5f None (C x30 None (C x30 (Some (W x81 x56 xdb xc6 xfe x4f x57 x85)) (C x5f None (C x30 None (C x30 (Some (W x0a x61 x7a x4e xc3 x6f x59 x87)) O
(C x31 (Some (W xbd x62 x7a x4e xc3 x70 x59 x87)) O
(C x32 (Some (W xa4 x5d x7a x4e xc3 x6d x59 x87)) O
O)))
O)
O)
(C x31 (Some (W xce x54 xdb xc6 xfe x4e x57 x85)) (C x5f None (C x30 None (C x30 (Some (W xdb x79 x12 x05 xb8 xe5 xd7 xb1)) O
(C x31 (Some (W x28 x78 x12 x05 xb8 xe4 xd7 xb1)) O
(C x32 (Some (W x41 x7d x12 x05 xb8 xe7 xd7 xb1)) O
O)))
O)
O)
(C x32 (Some (W x1b x53 xdb xc6 xfe x4d x57 x85)) (C x5f None (C x30 None (C x30 (Some (W x8c x5c x04 xa4 xb1 x5b x3d x86)) O
(C x31 (Some (W x3f x5e x04 xa4 xb1 x5c x3d x86)) O
(C x32 (Some (W xf2 x5f x04 xa4 xb1 x5d x3d x86)) O
O)))
O)
O)
O)))
O)
O)
(C x35 (Some (W x6f x63 x90 xd2 x25 xe8 x2e xd7)) (C x5f None (C x30 None (C x30 (Some (W x70 xf8 x59 x29 x05 x3a xa4 xb2)) (C x5f None (C x30 None (C x30 (Some (W x65 x4a xee x91 x89 x5d x0d x3e)) O
(C x31 (Some (W xb2 x48 xee x91 x89 x5c x0d x3e)) O
(C x32 (Some (W xff x46 xee x91 x89 x5b x0d x3e)) O
O)))
O)
O)
(C x31 (Some (W x23 xfa x59 x29 x05 x3b xa4 xb2)) (C x5f None (C x30 None (C x30 (Some (W xb4 x12 xfb xda x94 xe7 x22 x13)) O
(C x31 (Some (W x67 x14 xfb xda x94 xe8 x22 x13)) O
(C x32 (Some (W x1a x16 xfb xda x94 xe9 x22 x13)) O
O)))
O)
O)
(C x32 (Some (W xd6 xfb x59 x29 x05 x3c xa4 xb2)) (C x5f None (C x30 None (C x30 (Some (W xc3 xdb xd6 x03 x9a x11 x7e x16)) O
(C x31 (Some (W x10 xda xd6 x03 x9a x10 x7e x16)) O
(C x32 (Some (W x29 xdf xd6 x03 x9a x13 x7e x16)) O
O)))
O)
O)
O)))
O)
O)
(C x36 (Some (W x22 x65 x90 xd2 x25 xe9 x2e xd7)) (C x5f None (C x30 None (C x30 (Some (W x1f xb9 xc2 x72 x10 x44 x26 x88)) (C x5f None (C x30 None (C x30 (Some (W xa0 xf0 x29 x05 x74 x51 x9f x70)) O
(C x31 (Some (W x53 xf2 x29 x05 x74 x52 x9f x70)) O
(C x32 (Some (W x06 xf4 x29 x05 x74 x53 x9f x70)) O
O)))
O)
O)
(C x31 (Some (W x6c xb7 xc2 x72 x10 x43 x26 x88)) (C x5f None (C x30 None (C x30 (Some (W xf1 x74 xab xf4 x69 xa7 x35 xc4)) O
(C x31 (Some (W x3e x73 xab xf4 x69 xa6 x35 xc4)) O
(C x32 (Some (W x8b x71 xab xf4 x69 xa5 x35 xc4)) O
O)))
O)
O)
(C x32 (Some (W x85 xbc xc2 x72 x10 x46 x26 x88)) (C x5f None (C x30 None (C x30 (Some (W x7e xed xfb xaf x85 xe5 x27 x72)) O
(C x31 (Some (W x31 xef xfb xaf x85 xe6 x27 x72)) O
(C x32 (Some (W x18 xea xfb xaf x85 xe3 x27 x72)) O
O)))
O)
O)
O)))
O)
O)
(C x37 (Some (W xd5 x66 x90 xd2 x25 xea x2e xd7)) (C x5f None (C x30 None (C x30 (Some (W x0e x24 x2d x9a x15 x8e xce x89)) (C x5f None (C x30 None (C x30 (Some (W x1b xbf x18 xcf xb3 xe5 x8e xbb)) O
(C x31 (Some (W x68 xbd x18 xcf xb3 xe4 x8e xbb)) O
(C x32 (Some (W x81 xc2 x18 xcf xb3 xe7 x8e xbb)) O
O)))
O)
O)
(C x31 (Some (W xc1 x25 x2d x9a x15 x8f xce x89)) (C x5f None (C x30 None (C x30 (Some (W x4a xfb x81 x30 xba x6f x95 xe7)) O
(C x31 (Some (W xfd xfc x81 x30 xba x70 x95 xe7)) O
(C x32 (Some (W xe4 xf7 x81 x30 xba x6d x95 xe7)) O
O)))
O)
O)
(C x32 (Some (W xa8 x20 x2d x9a x15 x8c xce x89)) (C x5f None (C x30 None (C x30 (Some (W xbd x2d x30 x5d xa3 x31 x1e xe3)) O
(C x31 (Some (W x0a x2c x30 x5d xa3 x30 x1e xe3)) O
(C x32 (Some (W x57 x2a x30 x5d xa3 x2f x1e xe3)) O
O)))
O)
O)
O)))
O)
O)
(C x38 (Some (W x88 x68 x90 xd2 x25 xeb x2e xd7)) (C x5f None (C x30 None (C x30 (Some (W x5d xa7 xaa xe4 x20 x98 x96 x60)) (C x5f None (C x30 None (C x30 (Some (W x96 x3c x51 xca x72 xc7 x22 x07)) O
(C x31 (Some (W x49 x3e x51 xca x72 xc8 x22 x07)) O
(C x32 (Some (W x30 x39 x51 xca x72 xc5 x22 x07)) O
O)))
O)
O)
(C x31 (Some (W xaa xa5 xaa xe4 x20 x97 x96 x60)) (C x5f None (C x30 None (C x30 (Some (W xe7 xd9 x43 xa3 x6d x9d xe7 x05)) O
(C x31 (Some (W x34 xd8 x43 xa3 x6d x9c xe7 x05)) O
(C x32 (Some (W x4d xdd x43 xa3 x6d x9f xe7 x05)) O
O)))
O)
O)
(C x32 (Some (W xf7 xa3 xaa xe4 x20 x96 x96 x60)) (C x5f None (C x30 None (C x30 (Some (W xb8 x84 x69 x58 x62 x93 xb2 x2e)) O
(C x31 (Some (W x6b x86 x69 x58 x62 x94 xb2 x2e)) O
(C x32 (Some (W x1e x88 x69 x58 x62 x95 xb2 x2e)) O
O)))
O)
O)
O)))
O)
O)
(C x39 (Some (W x3b x6a x90 xd2 x25 xec x2e xd7)) (C x5f None (C x30 None (C x30 (Some (W x6c x31 x14 x80 x28 x42 xfc xb6)) (C x5f None (C x30 None (C x30 (Some (W xf1 xf2 x23 xc7 x1e x34 xc8 x9e)) O
(C x31 (Some (W x3e xf1 x23 xc7 x1e x33 xc8 x9e)) O
(C x32 (Some (W x8b xef x23 xc7 x1e x32 xc8 x9e)) O
O)))
O)
O)
(C x31 (Some (W x1f x33 x14 x80 x28 x43 xfc xb6)) (C x5f None (C x30 None (C x30 (Some (W xa0 x6e xa2 xd7 x28 xde x31 x4b)) O
(C x31 (Some (W x53 x70 xa2 xd7 x28 xdf x31 x4b)) O
(C x32 (Some (W x06 x72 xa2 xd7 x28 xe0 x31 x4b)) O
O)))
O)
O)
(C x32 (Some (W xd2 x34 x14 x80 x28 x44 xfc xb6)) (C x5f None (C x30 None (C x30 (Some (W x4f x84 x0c x39 x2f xe8 x38 x77)) O
(C x31 (Some (W x9c x82 x0c x39 x2f xe7 x38 x77)) O
(C x32 (Some (W xb5 x87 x0c x39 x2f xea x38 x77)) O
O)))
O)
O)
O)))
O)
O)
O))))))))))
(C x36 None (C x30 (Some (W x0b xce x98 xd2 x25 xf5 x38 xd7)) (C x5f None (C x30 None (C x30 (Some (W x3c x77 x0a xc6 x52 xde xa5 x52)) (C x5f None (C x30 None (C x30 (Some (W x01 xb3 x3c xf1 x17 x20 x3f x9e)) O
(C x31 (Some (W x4e xb1 x3c xf1 x17 x1f x3f x9e)) O
(C x32 (Some (W x9b xaf x3c xf1 x17 x1e x3f x9e)) O
O)))
O)
O)
(C x31 (Some (W xef x78 x0a xc6 x52 xdf xa5 x52)) (C x5f None (C x30 None (C x30 (Some (W xf0 x54 xbb x53 x1e x0a x8c xcb)) O
(C x31 (Some (W xa3 x56 xbb x53 x1e x0b x8c xcb)) O
(C x32 (Some (W x56 x58 xbb x53 x1e x0c x8c xcb)) O
O)))
O)
O)
(C x32 (Some (W xa2 x7a x0a xc6 x52 xe0 xa5 x52)) (C x5f None (C x30 None (C x30 (Some (W x9f x15 x24 x9d x29 x14 x0e xa1)) O
(C x31 (Some (W xec x13 x24 x9d x29 x13 x0e xa1)) O
(C x32 (Some (W x05 x19 x24 x9d x29 x16 x0e xa1)) O
O)))
O)
O)
O)))
O)
O)
(C x31 (Some (W x58 xcc x98 xd2 x25 xf4 x38 xd7)) (C x5f None (C x30 None (C x30 (Some (W xed xec xa1 x7c x47 xf4 x23 x7d)) (C x5f None (C x30 None (C x30 (Some (W xa6 xcd x14 x45 x38 x4d x6f x6b)) O
(C x31 (Some (W x59 xcf x14 x45 x38 x4e x6f x6b)) O
(C x32 (Some (W x40 xca x14 x45 x38 x4b x6f x6b)) O
O)))
O)
O)
(C x31 (Some (W x3a xeb xa1 x7c x47 xf3 x23 x7d)) (C x5f None (C x30 None (C x30 (Some (W x37 xc0 x07 xe4 x31 x63 xd5 x3f)) O
(C x31 (Some (W x84 xbe x07 xe4 x31 x62 xd5 x3f)) O
(C x32 (Some (W x9d xc3 x07 xe4 x31 x65 xd5 x3f)) O
O)))
O)
O)
(C x32 (Some (W x87 xe9 xa1 x7c x47 xf2 x23 x7d)) (C x5f None (C x30 None (C x30 (Some (W xc8 xff x9d x48 x2a x99 x6f xe9)) O
(C x31 (Some (W x7b x01 x9e x48 x2a x9a x6f xe9)) O
(C x32 (Some (W x2e x03 x9e x48 x2a x9b x6f xe9)) O
O)))
O)
O)
O)))
O)
O)
(C x32 (Some (W x71 xd1 x98 xd2 x25 xf7 x38 xd7)) (C x5f None (C x30 None (C x30 (Some (W xfa x0f xf3 xc3 x60 xb2 x58 xd6)) (C x5f None (C x30 None (C x30 (Some (W xf7 x76 xf2 xbe x9f x7c x43 xeb)) O
(C x31 (Some (W x44 x75 xf2 xbe x9f x7b x43 xeb)) O
(C x32 (Some (W x5d x7a xf2 xbe x9f x7e x43 xeb)) O
O)))
O)
O)
(C x31 (Some (W xad x11 xf3 xc3 x60 xb3 x58 xd6)) (C x5f None (C x30 None (C x30 (Some (W x66 x2f xfe x07 xab x66 x58 xc0)) O
(C x31 (Some (W x19 x31 xfe x07 xab x67 x58 xc0)) O
(C x32 (Some (W x00 x2c xfe x07 xab x64 x58 xc0)) O
O)))
O)
O)
(C x32 (Some (W x94 x0c xf3 xc3 x60 xb0 x58 xd6)) (C x5f None (C x30 None (C x30 (Some (W x59 x0c xad xc0 x91 xa8 x23 x67)) O
(C x31 (Some (W xa6 x0a xad xc0 x91 xa7 x23 x67)) O
(C x32 (Some (W xf3 x08 xad xc0 x91 xa6 x23 x67)) O
O)))
O)
O)
O)))
O)
O)
(C x33 (Some (W xbe xcf x98 xd2 x25 xf6 x38 xd7)) (C x5f None (C x30 None (C x30 (Some (W x4b xfa x88 x62 x5a xa8 x51 xaa)) (C x5f None (C x30 None (C x30 (Some (W x7c x30 x20 xb1 xa5 x9b x66 xa3)) O
(C x31 (Some (W x2f x32 x20 xb1 xa5 x9c x66 xa3)) O
(C x32 (Some (W xe2 x33 x20 xb1 xa5 x9d x66 xa3)) O
O)))
O)
O)
(C x31 (Some (W x98 xf8 x88 x62 x5a xa7 x51 xaa)) (C x5f None (C x30 None (C x30 (Some (W x2d x51 xb6 x4f x9f xb1 x5f x77)) O
(C x31 (Some (W x7a x4f xb6 x4f x9f xb0 x5f x77)) O
(C x32 (Some (W xc7 x4d xb6 x4f x9f xaf x5f x77)) O
O)))
O)
O)
(C x32 (Some (W xb1 xfd x88 x62 x5a xaa x51 xaa)) (C x5f None (C x30 None (C x30 (Some (W x3a x74 x07 x97 xb8 x6f x94 xd0)) O
(C x31 (Some (W xed x75 x07 x97 xb8 x70 x94 xd0)) O
(C x32 (Some (W xd4 x70 x07 x97 xb8 x6d x94 xd0)) O
O)))
O)
O)
O)))
O)
O)
(C x34 (Some (W xd7 xd4 x98 xd2 x25 xf9 x38 xd7)) (C x5f None (C x30 None (C x30 (Some (W xd8 xc7 xda x35 x71 xe6 xc8 xae)) (C x5f None (C x30 None (C x30 (Some (W x6d xeb xbd x31 x96 xb1 x9b xd7)) O
(C x31 (Some (W xba xe9 xbd x31 x96 xb0 x9b xd7)) O
(C x32 (Some (W x07 xe8 xbd x31 x96 xaf x9b xd7)) O
O)))
O)
O)
(C x31 (Some (W x8b xc9 xda x35 x71 xe7 xc8 xae)) (C x5f None (C x30 None (C x30 (Some (W xbc x75 x26 x7b xa1 x9b x1d xad)) O
(C x31 (Some (W x6f x77 x26 x7b xa1 x9c x1d xad)) O
(C x32 (Some (W x22 x79 x26 x7b xa1 x9d x1d xad)) O
O)))
O)
O)
(C x32 (Some (W x3e xcb xda x35 x71 xe8 xc8 xae)) (C x5f None (C x30 None (C x30 (Some (W xcb xf8 xa4 x17 xa9 x65 xc9 x04)) O
(C x31 (Some (W x18 xf7 xa4 x17 xa9 x64 xc9 x04)) O
(C x32 (Some (W x31 xfc xa4 x17 xa9 x67 xc9 x04)) O
O)))
O)
O)
O)))
O)
O)
(C x35 (Some (W x24 xd3 x98 xd2 x25 xf8 x38 xd7)) (C x5f None (C x30 None (C x30 (Some (W x69 x36 x71 x0e x6c x1c x21 xad)) (C x5f None (C x30 None (C x30 (Some (W x32 x10 xad xbc x82 xe1 x60 xb4)) O
(C x31 (Some (W xe5 x11 xad xbc x82 xe2 x60 xb4)) O
(C x32 (Some (W xcc x0c xad xbc x82 xdf x60 xb4)) O
O)))
O)
O)
(C x31 (Some (W xb6 x34 x71 x0e x6c x1b x21 xad)) (C x5f None (C x30 None (C x30 (Some (W xe3 x37 x2e x5a x7c xd7 x13 x87)) O
(C x31 (Some (W x30 x36 x2e x5a x7c xd6 x13 x87)) O
(C x32 (Some (W x49 x3b x2e x5a x7c xd9 x13 x87)) O
O)))
O)
O)
(C x32 (Some (W x03 x33 x71 x0e x6c x1a x21 xad)) (C x5f None (C x30 None (C x30 (Some (W xd4 xad xc4 xbe x74 x2d xae x30)) O
(C x31 (Some (W x87 xaf xc4 xbe x74 x2e xae x30)) O
(C x32 (Some (W x3a xb1 xc4 xbe x74 x2f xae x30)) O
O)))
O)
O)
O)))
O)
O)
(C x36 (Some (W x3d xd8 x98 xd2 x25 xfb x38 xd7)) (C x5f None (C x30 None (C x30 (Some (W xb6 xae xc2 x1b x84 x1a xf7 xdb)) (C x5f None (C x30 None (C x30 (Some (W xe3 xb5 xa6 x2c x31 x64 xa6 x61)) O
(C x31 (Some (W x30 xb4 xa6 x2c x31 x63 xa6 x61)) O
(C x32 (Some (W x49 xb9 xa6 x2c x31 x66 xa6 x61)) O
O)))
O)
O)
(C x31 (Some (W x69 xb0 xc2 x1b x84 x1b xf7 xdb)) (C x5f None (C x30 None (C x30 (Some (W x32 x8e x25 x8f x37 x6e xf3 x8e)) O
(C x31 (Some (W xe5 x8f x25 x8f x37 x6f xf3 x8e)) O
(C x32 (Some (W xcc x8a x25 x8f x37 x6c xf3 x8e)) O
O)))
O)
O)
(C x32 (Some (W x50 xab xc2 x1b x84 x18 xf7 xdb)) (C x5f None (C x30 None (C x30 (Some (W x85 xa8 xbf x46 x1e xb0 x78 x34)) O
(C x31 (Some (W xd2 xa6 xbf x46 x1e xaf x78 x34)) O
(C x32 (Some (W x1f xa5 xbf x46 x1e xae x78 x34)) O
O)))
O)
O)
O)))
O)
O)
(C x37 (Some (W x8a xd6 x98 xd2 x25 xfa x38 xd7)) (C x5f None (C x30 None (C x30 (Some (W x87 x88 x43 x7f x7c xf0 x4a x84)) (C x5f None (C x30 None (C x30 (Some (W xc8 x34 x55 xdf x81 xe5 xf8 x34)) O
(C x31 (Some (W x7b x36 x55 xdf x81 xe6 xf8 x34)) O
(C x32 (Some (W x2e x38 x55 xdf x81 xe7 xf8 x34)) O
O)))
O)
O)
(C x31 (Some (W xd4 x86 x43 x7f x7c xef x4a x84)) (C x5f None (C x30 None (C x30 (Some (W x99 xdf x7a x94 x76 xdb xc3 x5d)) O
(C x31 (Some (W xe6 xdd x7a x94 x76 xda xc3 x5d)) O
(C x32 (Some (W x33 xdc x7a x94 x76 xd9 xc3 x5d)) O
O)))
O)
O)
(C x32 (Some (W xed x8b x43 x7f x7c xf2 x4a x84)) (C x5f None (C x30 None (C x30 (Some (W xa6 x02 xcc xdb x8f x99 xf8 xb6)) O
(C x31 (Some (W x59 x04 xcc xdb x8f x9a xf8 xb6)) O
(C x32 (Some (W x40 xff xcb xdb x8f x97 xf8 xb6)) O
O)))
O)
O)
O)))
O)
O)
(C x38 (Some (W x73 xc0 x98 xd2 x25 xed x38 xd7)) (C x5f None (C x30 None (C x30 (Some (W x44 xb8 xf2 x52 x0d xae xc1 x74)) (C x5f None (C x30 None (C x30 (Some (W x49 x76 xfa xc6 x17 xa8 x73 x6b)) O
(C x31 (Some (W x96 x74 xfa xc6 x17 xa7 x73 x6b)) O
(C x32 (Some (W xe3 x72 xfa xc6 x17 xa6 x73 x6b)) O
O)))
O)
O)
(C x31 (Some (W xf7 xb9 xf2 x52 x0d xaf xc1 x74)) (C x5f None (C x30 None (C x30 (Some (W xb8 x36 x64 x62 x1f x72 xd9 xc1)) O
(C x31 (Some (W x6b x38 x64 x62 x1f x73 xd9 xc1)) O
(C x32 (Some (W x1e x3a x64 x62 x1f x74 xd9 xc1)) O
O)))
O)
O)
(C x32 (Some (W xaa xbb xf2 x52 x0d xb0 xc1 x74)) (C x5f None (C x30 None (C x30 (Some (W xe7 x8b x3e xad x2a x7c x0e x99)) O
(C x31 (Some (W x34 x8a x3e xad x2a x7b x0e x99)) O
(C x32 (Some (W x4d x8f x3e xad x2a x7e x0e x99)) O
O)))
O)
O)
O)))
O)
O)
(C x39 (Some (W xc0 xbe x98 xd2 x25 xec x38 xd7)) (C x5f None (C x30 None (C x30 (Some (W x35 x35 x74 xb6 x05 xe4 x15 x1d)) (C x5f None (C x30 None (C x30 (Some (W x2e xf1 x72 x07 x8a xac xb8 x66)) O
(C x31 (Some (W xe1 xf2 x72 x07 x8a xad xb8 x66)) O
(C x32 (Some (W xc8 xed x72 x07 x8a xaa xb8 x66)) O
O)))
O)
O)
(C x31 (Some (W x82 x33 x74 xb6 x05 xe3 x15 x1d)) (C x5f None (C x30 None (C x30 (Some (W xbf x30 x09 x6c x82 xe2 x52 x10)) O
(C x31 (Some (W x0c x2f x09 x6c x82 xe1 x52 x10)) O
(C x32 (Some (W x25 x34 x09 x6c x82 xe4 x52 x10)) O
O)))
O)
O)
(C x32 (Some (W xcf x31 x74 xb6 x05 xe2 x15 x1d)) (C x5f None (C x30 None (C x30 (Some (W x10 xb5 x2f x21 x77 x58 x1e x39)) O
(C x31 (Some (W xc3 xb6 x2f x21 x77 x59 x1e x39)) O
(C x32 (Some (W x76 xb8 x2f x21 x77 x5a x1e x39)) O
O)))
O)
O)
O)))
O)
O)
O))))))))))
(C x37 None (C x30 (Some (W x02 x8e x96 xd2 x25 xef x35 xd7)) (C x5f None (C x30 None (C x30 (Some (W x3f xa4 x46 xf6 x48 x44 x28 xe1)) (C x5f None (C x30 None (C x30 (Some (W x00 x88 xb8 x6a x66 xe5 x78 x8f)) O
(C x31 (Some (W xb3 x89 xb8 x6a x66 xe6 x78 x8f)) O
(C x32 (Some (W x66 x8b xb8 x6a x66 xe7 x78 x8f)) O
O)))
O)
O)
(C x31 (Some (W x8c xa2 x46 xf6 x48 x43 x28 xe1)) (C x5f None (C x30 None (C x30 (Some (W xd1 xcf xab xcf x5e x3b x80 x39)) O
(C x31 (Some (W x1e xce xab xcf x5e x3a x80 x39)) O
(C x32 (Some (W x6b xcc xab xcf x5e x39 x80 x39)) O
O)))
O)
O)
(C x32 (Some (W xa5 xa7 x46 xf6 x48 x46 x28 xe1)) (C x5f None (C x30 None (C x30 (Some (W xde xf2 xfc x16 x78 xf9 xb4 x92)) O
(C x31 (Some (W x91 xf4 xfc x16 x78 xfa xb4 x92)) O
(C x32 (Some (W x78 xef xfc x16 x78 xf7 xb4 x92)) O
O)))
O)
O)
O)))
O)
O)
(C x31 (Some (W xb5 x8f x96 xd2 x25 xf0 x35 xd7)) (C x5f None (C x30 None (C x30 (Some (W xae x64 xb0 x91 x50 x0e x8e x37)) (C x5f None (C x30 None (C x30 (Some (W x7b x07 xfc x2e x1d x93 x4d x27)) O
(C x31 (Some (W xc8 x05 xfc x2e x1d x92 x4d x27)) O
(C x32 (Some (W xe1 x0a xfc x2e x1d x95 x4d x27)) O
O)))
O)
O)
(C x31 (Some (W x61 x66 xb0 x91 x50 x0f x8e x37)) (C x5f None (C x30 None (C x30 (Some (W x2a x1d x66 x90 x23 x9d x54 x53)) O
(C x31 (Some (W xdd x1e x66 x90 x23 x9e x54 x53)) O
(C x32 (Some (W xc4 x19 x66 x90 x23 x9b x54 x53)) O
O)))
O)
O)
(C x32 (Some (W x48 x61 xb0 x91 x50 x0c x8e x37)) (C x5f None (C x30 None (C x30 (Some (W x1d xfa x14 x49 x0a xdf x1f xfa)) O
(C x31 (Some (W x6a xf8 x14 x49 x0a xde x1f xfa)) O
(C x32 (Some (W xb7 xf6 x14 x49 x0a xdd x1f xfa)) O
O)))
O)
O)
O)))
O)
O)
(C x32 (Some (W x9c x8a x96 xd2 x25 xed x35 xd7)) (C x5f None (C x30 None (C x30 (Some (W xa1 x41 x5f x4a x37 x50 x59 xde)) (C x5f None (C x30 None (C x30 (Some (W x6a x66 x7b xb5 xb5 x83 xe6 xa7)) O
(C x31 (Some (W x1d x68 x7b xb5 xb5 x84 xe6 xa7)) O
(C x32 (Some (W x04 x63 x7b xb5 xb5 x81 xe6 xa7)) O
O)))
O)
O)
(C x31 (Some (W xee x3f x5f x4a x37 x4f x59 xde)) (C x5f None (C x30 None (C x30 (Some (W xbb xa5 x12 x6c xaa x79 x64 xd2)) O
(C x31 (Some (W x08 xa4 x12 x6c xaa x78 x64 xd2)) O
(C x32 (Some (W x21 xa9 x12 x6c xaa x7b x64 xd2)) O
O)))
O)
O)
(C x32 (Some (W x3b x3e x5f x4a x37 x4e x59 xde)) (C x5f None (C x30 None (C x30 (Some (W x6c xcd x93 x09 xa4 x6f x17 xa5)) O
(C x31 (Some (W x1f xcf x93 x09 xa4 x70 x17 xa5)) O
(C x32 (Some (W xd2 xd0 x93 x09 xa4 x71 x17 xa5)) O
O)))
O)
O)
O)))
O)
O)
(C x33 (Some (W x4f x8c x96 xd2 x25 xee x35 xd7)) (C x5f None (C x30 None (C x30 (Some (W x90 x28 x6d xab x3d xba xf3 x09)) (C x5f None (C x30 None (C x30 (Some (W xc5 x27 xa6 xde x6a x60 x89 x57)) O
(C x31 (Some (W x12 x26 xa6 xde x6a x5f x89 x57)) O
(C x32 (Some (W x5f x24 xa6 xde x6a x5e x89 x57)) O
O)))
O)
O)
(C x31 (Some (W x43 x2a x6d xab x3d xbb xf3 x09)) (C x5f None (C x30 None (C x30 (Some (W x14 x00 x25 x41 x71 x6a xd6 x84)) O
(C x31 (Some (W xc7 x01 x25 x41 x71 x6b xd6 x84)) O
(C x32 (Some (W x7a x03 x25 x41 x71 x6c xd6 x84)) O
O)))
O)
O)
(C x32 (Some (W xf6 x2b x6d xab x3d xbc xf3 x09)) (C x5f None (C x30 None (C x30 (Some (W x23 x8a x8e xdc x78 x14 x3c xdb)) O
(C x31 (Some (W x70 x88 x8e xdc x78 x13 x3c xdb)) O
(C x32 (Some (W x89 x8d x8e xdc x78 x16 x3c xdb)) O
O)))
O)
O)
O)))
O)
O)
(C x34 (Some (W x36 x87 x96 xd2 x25 xeb x35 xd7)) (C x5f None (C x30 None (C x30 (Some (W x63 x53 x77 xd8 x26 xfc xe8 x05)) (C x5f None (C x30 None (C x30 (Some (W xf4 xda xe3 x06 xb2 x0d x35 x66)) O
(C x31 (Some (W xa7 xdc xe3 x06 xb2 x0e x35 x66)) O
(C x32 (Some (W x5a xde xe3 x06 xb2 x0f x35 x66)) O
O)))
O)
O)
(C x31 (Some (W xb0 x51 x77 xd8 x26 xfb xe8 x05)) (C x5f None (C x30 None (C x30 (Some (W xa5 xbd xd5 xa5 xab x83 x9a x3a)) O
(C x31 (Some (W xf2 xbb xd5 xa5 xab x82 x9a x3a)) O
(C x32 (Some (W x3f xba xd5 xa5 xab x81 x9a x3a)) O
O)))
O)
O)
(C x32 (Some (W xc9 x56 x77 xd8 x26 xfe xe8 x05)) (C x5f None (C x30 None (C x30 (Some (W xd2 x92 xcb x78 xc2 x41 xa5 x3e)) O
(C x31 (Some (W x85 x94 xcb x78 xc2 x42 xa5 x3e)) O
(C x32 (Some (W x6c x8f xcb x78 xc2 x3f xa5 x3e)) O
O)))
O)
O)
O)))
O)
O)
(C x35 (Some (W xe9 x88 x96 xd2 x25 xec x35 xd7)) (C x5f None (C x30 None (C x30 (Some (W xb2 x2b xf6 x3a x2d x06 x36 x33)) (C x5f None (C x30 None (C x30 (Some (W x6f xca x54 xf8 x87 xbc xdf xc4)) O
(C x31 (Some (W xbc xc8 x54 xf8 x87 xbb xdf xc4)) O
(C x32 (Some (W xd5 xcd x54 xf8 x87 xbe xdf xc4)) O
O)))
O)
O)
(C x31 (Some (W x65 x2d xf6 x3a x2d x07 x36 x33)) (C x5f None (C x30 None (C x30 (Some (W x9e x74 x30 x5b x8e xc6 x99 xf2)) O
(C x31 (Some (W x51 x76 x30 x5b x8e xc7 x99 xf2)) O
(C x32 (Some (W x38 x71 x30 x5b x8e xc4 x99 xf2)) O
O)))
O)
O)
(C x32 (Some (W x4c x28 xf6 x3a x2d x04 x36 x33)) (C x5f None (C x30 None (C x30 (Some (W x91 x51 xdf x13 x75 x08 x65 x99)) O
(C x31 (Some (W xde x4f xdf x13 x75 x07 x65 x99)) O
(C x32 (Some (W x2b x4e xdf x13 x75 x06 x65 x99)) O
O)))
O)
O)
O)))
O)
O)
(C x36 (Some (W xd0 x83 x96 xd2 x25 xe9 x35 xd7)) (C x5f None (C x30 None (C x30 (Some (W x05 x46 x90 xf2 x13 x48 xbb xd8)) (C x5f None (C x30 None (C x30 (Some (W xfe xc5 x33 x0f x47 xbf x67 x83)) O
(C x31 (Some (W xb1 xc7 x33 x0f x47 xc0 x67 x83)) O
(C x32 (Some (W x98 xc2 x33 x0f x47 xbd x67 x83)) O
O)))
O)
O)
(C x31 (Some (W x52 x44 x90 xf2 x13 x47 xbb xd8)) (C x5f None (C x30 None (C x30 (Some (W xcf xde xcb xc5 x3b x35 xe6 xad)) O
(C x31 (Some (W x1c xdd xcb xc5 x3b x34 xe6 xad)) O
(C x32 (Some (W x35 xe2 xcb xc5 x3b x37 xe6 xad)) O
O)))
O)
O)
(C x32 (Some (W x9f x42 x90 xf2 x13 x46 xbb xd8)) (C x5f None (C x30 None (C x30 (Some (W x20 xc9 x61 x64 x35 x2b xdf x81)) O
(C x31 (Some (W xd3 xca x61 x64 x35 x2c xdf x81)) O
(C x32 (Some (W x86 xcc x61 x64 x35 x2d xdf x81)) O
O)))
O)
O)
O)))
O)
O)
(C x37 (Some (W x83 x85 x96 xd2 x25 xea x35 xd7)) (C x5f None (C x30 None (C x30 (Some (W x54 xc9 x0d x3d x1f x52 x83 xaf)) (C x5f None (C x30 None (C x30 (Some (W x19 x4b x10 x0a x06 x21 x8f xce)) O
(C x31 (Some (W x66 x49 x10 x0a x06 x20 x8f xce)) O
(C x32 (Some (W xb3 x47 x10 x0a x06 x1f x8f xce)) O
O)))
O)
O)
(C x31 (Some (W x07 xcb x0d x3d x1f x53 x83 xaf)) (C x5f None (C x30 None (C x30 (Some (W x48 xa0 xea x54 x11 x2b xc4 xa5)) O
(C x31 (Some (W xfb xa1 xea x54 x11 x2c xc4 xa5)) O
(C x32 (Some (W xae xa3 xea x54 x11 x2d xc4 xa5)) O
O)))
O)
O)
(C x32 (Some (W xba xcc x0d x3d x1f x54 x83 xaf)) (C x5f None (C x30 None (C x30 (Some (W xb7 x60 x54 xf0 x18 xf5 x29 xfc)) O
(C x31 (Some (W x04 x5f x54 xf0 x18 xf4 x29 xfc)) O
(C x32 (Some (W x1d x64 x54 xf0 x18 xf7 x29 xfc)) O
O)))
O)
O)
O)))
O)
O)
(C x38 (Some (W x9a x9b x96 xd2 x25 xf7 x35 xd7)) (C x5f None (C x30 None (C x30 (Some (W x57 x99 x5f xbb x8a x54 xf0 x3f)) (C x5f None (C x30 None (C x30 (Some (W x58 x09 x17 x39 x3b xb8 x8b xd2)) O
(C x31 (Some (W x0b x0b x17 x39 x3b xb9 x8b xd2)) O
(C x32 (Some (W xbe x0c x17 x39 x3b xba x8b xd2)) O
O)))
O)
O)
(C x31 (Some (W xa4 x97 x5f xbb x8a x53 xf0 x3f)) (C x5f None (C x30 None (C x30 (Some (W xe9 x77 xad x11 x36 xee xe3 xd0)) O
(C x31 (Some (W x36 x76 xad x11 x36 xed xe3 xd0)) O
(C x32 (Some (W x83 x74 xad x11 x36 xec xe3 xd0)) O
O)))
O)
O)
(C x32 (Some (W xbd x9c x5f xbb x8a x56 xf0 x3f)) (C x5f None (C x30 None (C x30 (Some (W x36 xf0 xfe x1e x4e xec xb9 xff)) O
(C x31 (Some (W xe9 xf1 xfe x1e x4e xed xb9 xff)) O
(C x32 (Some (W xd0 xec xfe x1e x4e xea xb9 xff)) O
O)))
O)
O)
O)))
O)
O)
(C x39 (Some (W x4d x9d x96 xd2 x25 xf8 x35 xd7)) (C x5f None (C x30 None (C x30 (Some (W xc6 x14 xdf x1d x91 xbe x3d x6d)) (C x5f None (C x30 None (C x30 (Some (W xf3 xa6 xf6 x43 x30 xea xfe x03)) O
(C x31 (Some (W x40 xa5 xf6 x43 x30 xe9 xfe x03)) O
(C x32 (Some (W x59 xaa xf6 x43 x30 xec xfe x03)) O
O)))
O)
O)
(C x31 (Some (W x79 x16 xdf x1d x91 xbf x3d x6d)) (C x5f None (C x30 None (C x30 (Some (W x82 x03 x76 xe0 x37 x34 xab x5b)) O
(C x31 (Some (W x35 x05 x76 xe0 x37 x35 xab x5b)) O
(C x32 (Some (W x1c x00 x76 xe0 x37 x32 xab x5b)) O
O)))
O)
O)
(C x32 (Some (W x60 x11 xdf x1d x91 xbc x3d x6d)) (C x5f None (C x30 None (C x30 (Some (W x95 x83 x80 xd3 x1f xb6 x41 x2d)) O
(C x31 (Some (W xe2 x81 x80 xd3 x1f xb5 x41 x2d)) O
(C x32 (Some (W x2f x80 x80 xd3 x1f xb4 x41 x2d)) O
O)))
O)
O)
O)))
O)
O)
O))))))))))
(C x38 None (C x30 (Some (W xa5 xad xb5 xd2 x25 xf1 x5a xd7)) (C x5f None (C x30 None (C x30 (Some (W xde xf4 x19 xe7 xfb xe1 xb2 x3a)) (C x5f None (C x30 None (C x30 (Some (W xab xd3 xca xc2 xcc xbd x9e x74)) O
(C x31 (Some (W xf8 xd1 xca xc2 xcc xbc x9e x74)) O
(C x32 (Some (W x11 xd7 xca xc2 xcc xbf x9e x74)) O
O)))
O)
O)
(C x31 (Some (W x91 xf6 x19 xe7 xfb xe2 xb2 x3a)) (C x5f None (C x30 None (C x30 (Some (W xda x28 xa5 x0d xd8 xc7 xd3 x4b)) O
(C x31 (Some (W x8d x2a xa5 x0d xd8 xc8 xd3 x4b)) O
(C x32 (Some (W x74 x25 xa5 x0d xd8 xc5 xd3 x4b)) O
O)))
O)
O)
(C x32 (Some (W x78 xf1 x19 xe7 xfb xdf xb2 x3a)) (C x5f None (C x30 None (C x30 (Some (W x4d xb0 x54 x52 xbc x89 xe1 x9d)) O
(C x31 (Some (W x9a xae x54 x52 xbc x88 xe1 x9d)) O
(C x32 (Some (W xe7 xac x54 x52 xbc x87 xe1 x9d)) O
O)))
O)
O)
O)))
O)
O)
(C x31 (Some (W xf2 xab xb5 xd2 x25 xf0 x5a xd7)) (C x5f None (C x30 None (C x30 (Some (W xaf x9f x3f x9c xf0 xd7 x7d x63)) (C x5f None (C x30 None (C x30 (Some (W xb0 x0c xee x90 xa8 x94 x5c x95)) O
(C x31 (Some (W x63 x0e xee x90 xa8 x95 x5c x95)) O
(C x32 (Some (W x16 x10 xee x90 xa8 x96 x5c x95)) O
O)))
O)
O)
(C x31 (Some (W xfc x9d x3f x9c xf0 xd6 x7d x63)) (C x5f None (C x30 None (C x30 (Some (W xc1 xbf x70 x46 x9d xaa x94 xbe)) O
(C x31 (Some (W x0e xbe x70 x46 x9d xa9 x94 xbe)) O
(C x32 (Some (W x5b xbc x70 x46 x9d xa8 x94 xbe)) O
O)))
O)
O)
(C x32 (Some (W x15 xa3 x3f x9c xf0 xd9 x7d x63)) (C x5f None (C x30 None (C x30 (Some (W x4e x38 xc1 x01 xb9 xe8 x86 x6c)) O
(C x31 (Some (W x01 x3a xc1 x01 xb9 xe9 x86 x6c)) O
(C x32 (Some (W xe8 x34 xc1 x01 xb9 xe6 x86 x6c)) O
O)))
O)
O)
O)))
O)
O)
(C x32 (Some (W x3f xaa xb5 xd2 x25 xef x5a xd7)) (C x5f None (C x30 None (C x30 (Some (W x00 x8a xd5 x3a xea xcd x76 x37)) (C x5f None (C x30 None (C x30 (Some (W x75 xce x78 x83 xae xd3 xec x4d)) O
(C x31 (Some (W xc2 xcc x78 x83 xae xd2 xec x4d)) O
(C x32 (Some (W x0f xcb x78 x83 xae xd1 xec x4d)) O
O)))
O)
O)
(C x31 (Some (W xb3 x8b xd5 x3a xea xce x76 x37)) (C x5f None (C x30 None (C x30 (Some (W x84 x51 xf7 x1f xb6 x9d x98 xa5)) O
(C x31 (Some (W x37 x53 xf7 x1f xb6 x9e x98 xa5)) O
(C x32 (Some (W xea x54 xf7 x1f xb6 x9f x98 xa5)) O
O)))
O)
O)
(C x32 (Some (W x66 x8d xd5 x3a xea xcf x76 x37)) (C x5f None (C x30 None (C x30 (Some (W xd3 x30 x61 x81 xbc x87 x9f xd1)) O
(C x31 (Some (W x20 x2f x61 x81 xbc x86 x9f xd1)) O
(C x32 (Some (W x39 x34 x61 x81 xbc x89 x9f xd1)) O
O)))
O)
O)
O)))
O)
O)
(C x33 (Some (W x8c xa8 xb5 xd2 x25 xee x5a xd7)) (C x5f None (C x30 None (C x30 (Some (W xd1 xd1 xc8 x9f xe2 x23 x7e xe1)) (C x5f None (C x30 None (C x30 (Some (W x1a xc7 xbb x4a x65 xae xea xf6)) O
(C x31 (Some (W xcd xc8 xbb x4a x65 xaf xea xf6)) O
(C x32 (Some (W xb4 xc3 xbb x4a x65 xac xea xf6)) O
O)))
O)
O)
(C x31 (Some (W x1e xd0 xc8 x9f xe2 x22 x7e xe1)) (C x5f None (C x30 None (C x30 (Some (W xeb x1c xe0 xe7 x5e xa4 x30 xc9)) O
(C x31 (Some (W x38 x1b xe0 xe7 x5e xa3 x30 xc9)) O
(C x32 (Some (W x51 x20 xe0 xe7 x5e xa6 x30 xc9)) O
O)))
O)
O)
(C x32 (Some (W x6b xce xc8 x9f xe2 x21 x7e xe1)) (C x5f None (C x30 None (C x30 (Some (W xdc xd8 xd3 xd8 x54 x5a x7a x1e)) O
(C x31 (Some (W x8f xda xd3 xd8 x54 x5b x7a x1e)) O
(C x32 (Some (W x42 xdc xd3 xd8 x54 x5c x7a x1e)) O
O)))
O)
O)
O)))
O)
O)
(C x34 (Some (W xd9 xa6 xb5 xd2 x25 xed x5a xd7)) (C x5f None (C x30 None (C x30 (Some (W xa2 x7c xee x54 xd7 x19 x49 x0a)) (C x5f None (C x30 None (C x30 (Some (W x9f x6b x6d x17 x41 x85 xf5 x15)) O
(C x31 (Some (W xec x69 x6d x17 x41 x84 xf5 x15)) O
(C x32 (Some (W x05 x6f x6d x17 x41 x87 xf5 x15)) O
O)))
O)
O)
(C x31 (Some (W x55 x7e xee x54 xd7 x1a x49 x0a)) (C x5f None (C x30 None (C x30 (Some (W x8e xd6 xd7 x3e x46 xcf x9d x17)) O
(C x31 (Some (W x41 xd8 xd7 x3e x46 xd0 x9d x17)) O
(C x32 (Some (W x28 xd3 xd7 x3e x46 xcd x9d x17)) O
O)))
O)
O)
(C x32 (Some (W x3c x79 xee x54 xd7 x17 x49 x0a)) (C x5f None (C x30 None (C x30 (Some (W x01 x09 x86 x6b x2f x91 x26 x13)) O
(C x31 (Some (W x4e x07 x86 x6b x2f x90 x26 x13)) O
(C x32 (Some (W x9b x05 x86 x6b x2f x8f x26 x13)) O
O)))
O)
O)
O)))
O)
O)
(C x35 (Some (W x26 xa5 xb5 xd2 x25 xec x5a xd7)) (C x5f None (C x30 None (C x30 (Some (W x93 xe3 xe0 x2d xd2 xcf x0d x09)) (C x5f None (C x30 None (C x30 (Some (W x24 x0d x22 x84 x66 xb8 xb3 x5e)) O
(C x31 (Some (W xd7 x0e x22 x84 x66 xb9 xb3 x5e)) O
(C x32 (Some (W x8a x10 x22 x84 x66 xba xb3 x5e)) O
O)))
O)
O)
(C x31 (Some (W xe0 xe1 xe0 x2d xd2 xce x0d x09)) (C x5f None (C x30 None (C x30 (Some (W x15 xc9 x15 x75 x5c x6e xfd xb3)) O
(C x31 (Some (W x62 xc7 x15 x75 x5c x6d xfd xb3)) O
(C x32 (Some (W xaf xc5 x15 x75 x5c x6c xfd xb3)) O
O)))
O)
O)
(C x32 (Some (W xf9 xe6 xe0 x2d xd2 xd1 x0d x09)) (C x5f None (C x30 None (C x30 (Some (W x02 x49 x0b x82 x74 xec x66 xe2)) O
(C x31 (Some (W xb5 x4a x0b x82 x74 xed x66 xe2)) O
(C x32 (Some (W x9c x45 x0b x82 x74 xea x66 xe2)) O
O)))
O)
O)
O)))
O)
O)
(C x36 (Some (W x73 xa3 xb5 xd2 x25 xeb x5a xd7)) (C x5f None (C x30 None (C x30 (Some (W x44 x59 x78 xe4 xc6 xe5 x8b x33)) (C x5f None (C x30 None (C x30 (Some (W x49 x01 xfb xd7 x86 x65 xe4 x2b)) O
(C x31 (Some (W x96 xff xfa xd7 x86 x64 xe4 x2b)) O
(C x32 (Some (W xe3 xfd xfa xd7 x86 x63 xe4 x2b)) O
O)))
O)
O)
(C x31 (Some (W xf7 x5a x78 xe4 xc6 xe6 x8b x33)) (C x5f None (C x30 None (C x30 (Some (W xb8 xc1 x64 x73 x8e x2f x4a x82)) O
(C x31 (Some (W x6b xc3 x64 x73 x8e x30 x4a x82)) O
(C x32 (Some (W x1e xc5 x64 x73 x8e x31 x4a x82)) O
O)))
O)
O)
(C x32 (Some (W xaa x5c x78 xe4 xc6 xe7 x8b x33)) (C x5f None (C x30 None (C x30 (Some (W xe7 x16 x3f xbe x99 x39 x7f x59)) O
(C x31 (Some (W x34 x15 x3f xbe x99 x38 x7f x59)) O
(C x32 (Some (W x4d x1a x3f xbe x99 x3b x7f x59)) O
O)))
O)
O)
O)))
O)
O)
(C x37 (Some (W xc0 xa1 xb5 xd2 x25 xea x5a xd7)) (C x5f None (C x30 None (C x30 (Some (W x35 xd6 xf9 x47 xbf x1b xe0 xdb)) (C x5f None (C x30 None (C x30 (Some (W x2e x7c x73 x18 xf9 x69 x29 x27)) O
(C x31 (Some (W xe1 x7d x73 x18 xf9 x6a x29 x27)) O
(C x32 (Some (W xc8 x78 x73 x18 xf9 x67 x29 x27)) O
O)))
O)
O)
(C x31 (Some (W x82 xd4 xf9 x47 xbf x1a xe0 xdb)) (C x5f None (C x30 None (C x30 (Some (W xbf xbb x09 x7d xf1 x9f xc3 xd0)) O
(C x31 (Some (W x0c xba x09 x7d xf1 x9e xc3 xd0)) O
(C x32 (Some (W x25 xbf x09 x7d xf1 xa1 xc3 xd0)) O
O)))
O)
O)
(C x32 (Some (W xcf xd2 xf9 x47 xbf x19 xe0 xdb)) (C x5f None (C x30 None (C x30 (Some (W x10 x40 x30 x32 xe6 x15 x8f xf9)) O
(C x31 (Some (W xc3 x41 x30 x32 xe6 x16 x8f xf9)) O
(C x32 (Some (W x76 x43 x30 x32 xe6 x17 x8f xf9)) O
O)))
O)
O)
O)))
O)
O)
(C x38 (Some (W x3d xbb xb5 xd2 x25 xf9 x5a xd7)) (C x5f None (C x30 None (C x30 (Some (W xb6 x4f x48 xad x3d x52 xc1 x9a)) (C x5f None (C x30 None (C x30 (Some (W xe3 x40 xa7 x3d xa0 x21 x17 x22)) O
(C x31 (Some (W x30 x3f xa7 x3d xa0 x20 x17 x22)) O
(C x32 (Some (W x49 x44 xa7 x3d xa0 x23 x17 x22)) O
O)))
O)
O)
(C x31 (Some (W x69 x51 x48 xad x3d x53 xc1 x9a)) (C x5f None (C x30 None (C x30 (Some (W x32 x19 x26 xa0 xa6 x2b x64 x4f)) O
(C x31 (Some (W xe5 x1a x26 xa0 xa6 x2c x64 x4f)) O
(C x32 (Some (W xcc x15 x26 xa0 xa6 x29 x64 x4f)) O
O)))
O)
O)
(C x32 (Some (W x50 x4c x48 xad x3d x50 xc1 x9a)) (C x5f None (C x30 None (C x30 (Some (W x85 x33 xc0 x57 x8d x6d xe9 xf4)) O
(C x31 (Some (W xd2 x31 xc0 x57 x8d x6c xe9 xf4)) O
(C x32 (Some (W x1f x30 xc0 x57 x8d x6b xe9 xf4)) O
O)))
O)
O)
O)))
O)
O)
(C x39 (Some (W x8a xb9 xb5 xd2 x25 xf8 x5a xd7)) (C x5f None (C x30 None (C x30 (Some (W x87 x29 xc9 x10 x36 x28 x15 x43)) (C x5f None (C x30 None (C x30 (Some (W xc8 xbf x55 xf0 xf0 xa2 x69 xf5)) O
(C x31 (Some (W x7b xc1 x55 xf0 xf0 xa3 x69 xf5)) O
(C x32 (Some (W x2e xc3 x55 xf0 xf0 xa4 x69 xf5)) O
O)))
O)
O)
(C x31 (Some (W xd4 x27 xc9 x10 x36 x27 x15 x43)) (C x5f None (C x30 None (C x30 (Some (W x99 x6a x7b xa5 xe5 x98 x34 x1e)) O
(C x31 (Some (W xe6 x68 x7b xa5 xe5 x97 x34 x1e)) O
(C x32 (Some (W x33 x67 x7b xa5 xe5 x96 x34 x1e)) O
O)))
O)
O)
(C x32 (Some (W xed x2c xc9 x10 x36 x2a x15 x43)) (C x5f None (C x30 None (C x30 (Some (W xa6 x8d xcc xec xfe x56 x69 x77)) O
(C x31 (Some (W x59 x8f xcc xec xfe x57 x69 x77)) O
(C x32 (Some (W x40 x8a xcc xec xfe x54 x69 x77)) O
O)))
O)
O)
O)))
O)
O)
O))))))))))
(C x39 None (C x30 (Some (W x9c x6d xb3 xd2 x25 xeb x57 xd7)) (C x5f None (C x30 None (C x30 (Some (W xa1 xe2 xe4 xdb xf0 x87 x23 x9d)) (C x5f None (C x30 None (C x30 (Some (W x6a xf1 x7b xc6 x24 x41 x57 x68)) O
(C x31 (Some (W x1d xf3 x7b xc6 x24 x42 x57 x68)) O
(C x32 (Some (W x04 xee x7b xc6 x24 x3f x57 x68)) O
O)))
O)
O)
(C x31 (Some (W xee xe0 xe4 xdb xf0 x86 x23 x9d)) (C x5f None (C x30 None (C x30 (Some (W xbb x30 x13 x7d x19 x37 xd5 x92)) O
(C x31 (Some (W x08 x2f x13 x7d x19 x36 xd5 x92)) O
(C x32 (Some (W x21 x34 x13 x7d x19 x39 xd5 x92)) O
O)))
O)
O)
(C x32 (Some (W x3b xdf xe4 xdb xf0 x85 x23 x9d)) (C x5f None (C x30 None (C x30 (Some (W x6c x58 x94 x1a x13 x2d x88 x65)) O
(C x31 (Some (W x1f x5a x94 x1a x13 x2e x88 x65)) O
(C x32 (Some (W xd2 x5b x94 x1a x13 x2f x88 x65)) O
O)))
O)
O)
O)))
O)
O)
(C x31 (Some (W x4f x6f xb3 xd2 x25 xec x57 xd7)) (C x5f None (C x30 None (C x30 (Some (W x90 xc9 xf2 x3c xf7 xf1 xbd xc8)) (C x5f None (C x30 None (C x30 (Some (W xc5 xb2 xa6 xef xd9 x1d xfa x17)) O
(C x31 (Some (W x12 xb1 xa6 xef xd9 x1c xfa x17)) O
(C x32 (Some (W x5f xaf xa6 xef xd9 x1b xfa x17)) O
O)))
O)
O)
(C x31 (Some (W x43 xcb xf2 x3c xf7 xf2 xbd xc8)) (C x5f None (C x30 None (C x30 (Some (W x14 x8b x25 x52 xe0 x27 x47 x45)) O
(C x31 (Some (W xc7 x8c x25 x52 xe0 x28 x47 x45)) O
(C x32 (Some (W x7a x8e x25 x52 xe0 x29 x47 x45)) O
O)))
O)
O)
(C x32 (Some (W xf6 xcc xf2 x3c xf7 xf3 xbd xc8)) (C x5f None (C x30 None (C x30 (Some (W x23 x15 x8f xed xe7 xd1 xac x9b)) O
(C x31 (Some (W x70 x13 x8f xed xe7 xd0 xac x9b)) O
(C x32 (Some (W x89 x18 x8f xed xe7 xd3 xac x9b)) O
O)))
O)
O)
O)))
O)
O)
(C x32 (Some (W x02 x71 xb3 xd2 x25 xed x57 xd7)) (C x5f None (C x30 None (C x30 (Some (W x3f x45 xcc x87 x02 x7c xf2 x9f)) (C x5f None (C x30 None (C x30 (Some (W x00 x13 xb9 x7b xd5 xa2 xe9 x4f)) O
(C x31 (Some (W xb3 x14 xb9 x7b xd5 xa3 xe9 x4f)) O
(C x32 (Some (W x66 x16 xb9 x7b xd5 xa4 xe9 x4f)) O
O)))
O)
O)
(C x31 (Some (W x8c x43 xcc x87 x02 x7b xf2 x9f)) (C x5f None (C x30 None (C x30 (Some (W xd1 x5a xac xe0 xcd xf8 xf0 xf9)) O
(C x31 (Some (W x1e x59 xac xe0 xcd xf7 xf0 xf9)) O
(C x32 (Some (W x6b x57 xac xe0 xcd xf6 xf0 xf9)) O
O)))
O)
O)
(C x32 (Some (W xa5 x48 xcc x87 x02 x7e xf2 x9f)) (C x5f None (C x30 None (C x30 (Some (W xde x7d xfd x27 xe7 xb6 x25 x53)) O
(C x31 (Some (W x91 x7f xfd x27 xe7 xb7 x25 x53)) O
(C x32 (Some (W x78 x7a xfd x27 xe7 xb4 x25 x53)) O
O)))
O)
O)
O)))
O)
O)
(C x33 (Some (W xb5 x72 xb3 xd2 x25 xee x57 xd7)) (C x5f None (C x30 None (C x30 (Some (W xae x05 x36 x23 x0a x46 x58 xf6)) (C x5f None (C x30 None (C x30 (Some (W x7b x92 xfc x3f x8c x50 xbe xe7)) O
(C x31 (Some (W xc8 x90 xfc x3f x8c x4f xbe xe7)) O
(C x32 (Some (W xe1 x95 xfc x3f x8c x52 xbe xe7)) O
O)))
O)
O)
(C x31 (Some (W x61 x07 x36 x23 x0a x47 x58 xf6)) (C x5f None (C x30 None (C x30 (Some (W x2a xa8 x66 xa1 x92 x5a xc5 x13)) O
(C x31 (Some (W xdd xa9 x66 xa1 x92 x5b xc5 x13)) O
(C x32 (Some (W xc4 xa4 x66 xa1 x92 x58 xc5 x13)) O
O)))
O)
O)
(C x32 (Some (W x48 x02 x36 x23 x0a x44 x58 xf6)) (C x5f None (C x30 None (C x30 (Some (W x1d x85 x15 x5a x79 x9c x90 xba)) O
(C x31 (Some (W x6a x83 x15 x5a x79 x9b x90 xba)) O
(C x32 (Some (W xb7 x81 x15 x5a x79 x9a x90 xba)) O
O)))
O)
O)
O)))
O)
O)
(C x34 (Some (W xd0 x66 xb3 xd2 x25 xe7 x57 xd7)) (C x5f None (C x30 None (C x30 (Some (W x05 xe7 x15 x84 xcd x7f x85 x97)) (C x5f None (C x30 None (C x30 (Some (W xfe x50 x34 x20 xb6 x7c xd8 x43)) O
(C x31 (Some (W xb1 x52 x34 x20 xb6 x7d xd8 x43)) O
(C x32 (Some (W x98 x4d x34 x20 xb6 x7a xd8 x43)) O
O)))
O)
O)
(C x31 (Some (W x52 xe5 x15 x84 xcd x7e x85 x97)) (C x5f None (C x30 None (C x30 (Some (W xcf x69 xcc xd6 xaa xf2 x56 x6e)) O
(C x31 (Some (W x1c x68 xcc xd6 xaa xf1 x56 x6e)) O
(C x32 (Some (W x35 x6d xcc xd6 xaa xf4 x56 x6e)) O
O)))
O)
O)
(C x32 (Some (W x9f xe3 x15 x84 xcd x7d x85 x97)) (C x5f None (C x30 None (C x30 (Some (W x20 x54 x62 x75 xa4 xe8 x4f x42)) O
(C x31 (Some (W xd3 x55 x62 x75 xa4 xe9 x4f x42)) O
(C x32 (Some (W x86 x57 x62 x75 xa4 xea x4f x42)) O
O)))
O)
O)
O)))
O)
O)
(C x35 (Some (W x83 x68 xb3 xd2 x25 xe8 x57 xd7)) (C x5f None (C x30 None (C x30 (Some (W x54 x6a x93 xce xd8 x89 x4d x6e)) (C x5f None (C x30 None (C x30 (Some (W x19 xd6 x10 x1b x75 xde xff x8e)) O
(C x31 (Some (W x66 xd4 x10 x1b x75 xdd xff x8e)) O
(C x32 (Some (W xb3 xd2 x10 x1b x75 xdc xff x8e)) O
O)))
O)
O)
(C x31 (Some (W x07 x6c x93 xce xd8 x8a x4d x6e)) (C x5f None (C x30 None (C x30 (Some (W x48 x2b xeb x65 x80 xe8 x34 x66)) O
(C x31 (Some (W xfb x2c xeb x65 x80 xe9 x34 x66)) O
(C x32 (Some (W xae x2e xeb x65 x80 xea x34 x66)) O
O)))
O)
O)
(C x32 (Some (W xba x6d x93 xce xd8 x8b x4d x6e)) (C x5f None (C x30 None (C x30 (Some (W xb7 xeb x54 x01 x88 xb2 x9a xbc)) O
(C x31 (Some (W x04 xea x54 x01 x88 xb1 x9a xbc)) O
(C x32 (Some (W x1d xef x54 x01 x88 xb4 x9a xbc)) O
O)))
O)
O)
O)))
O)
O)
(C x36 (Some (W x36 x6a xb3 xd2 x25 xe9 x57 xd7)) (C x5f None (C x30 None (C x30 (Some (W x63 xf4 xfc x69 xe0 x33 xb3 xc4)) (C x5f None (C x30 None (C x30 (Some (W xf4 x65 xe4 x17 x21 xcb xa5 x26)) O
(C x31 (Some (W xa7 x67 xe4 x17 x21 xcc xa5 x26)) O
(C x32 (Some (W x5a x69 xe4 x17 x21 xcd xa5 x26)) O
O)))
O)
O)
(C x31 (Some (W xb0 xf2 xfc x69 xe0 x32 xb3 xc4)) (C x5f None (C x30 None (C x30 (Some (W xa5 x48 xd6 xb6 x1a x41 x0b xfb)) O
(C x31 (Some (W xf2 x46 xd6 xb6 x1a x40 x0b xfb)) O
(C x32 (Some (W x3f x45 xd6 xb6 x1a x3f x0b xfb)) O
O)))
O)
O)
(C x32 (Some (W xc9 xf7 xfc x69 xe0 x35 xb3 xc4)) (C x5f None (C x30 None (C x30 (Some (W xd2 x1d xcc x89 x31 xff x15 xff)) O
(C x31 (Some (W x85 x1f xcc x89 x31 x00 x16 xff)) O
(C x32 (Some (W x6c x1a xcc x89 x31 xfd x15 xff)) O
O)))
O)
O)
O)))
O)
O)
(C x37 (Some (W xe9 x6b xb3 xd2 x25 xea x57 xd7)) (C x5f None (C x30 None (C x30 (Some (W xb2 xcc x7b xcc xe6 x3d x00 xf2)) (C x5f None (C x30 None (C x30 (Some (W x6f x55 x55 x09 xf7 x79 x50 x85)) O
(C x31 (Some (W xbc x53 x55 x09 xf7 x78 x50 x85)) O
(C x32 (Some (W xd5 x58 x55 x09 xf7 x7b x50 x85)) O
O)))
O)
O)
(C x31 (Some (W x65 xce x7b xcc xe6 x3e x00 xf2)) (C x5f None (C x30 None (C x30 (Some (W x9e xff x30 x6c xfd x83 x0a xb3)) O
(C x31 (Some (W x51 x01 x31 x6c xfd x84 x0a xb3)) O
(C x32 (Some (W x38 xfc x30 x6c xfd x81 x0a xb3)) O
O)))
O)
O)
(C x32 (Some (W x4c xc9 x7b xcc xe6 x3b x00 xf2)) (C x5f None (C x30 None (C x30 (Some (W x91 xdc xdf x24 xe4 xc5 xd5 x59)) O
(C x31 (Some (W xde xda xdf x24 xe4 xc4 xd5 x59)) O
(C x32 (Some (W x2b xd9 xdf x24 xe4 xc3 xd5 x59)) O
O)))
O)
O)
O)))
O)
O)
(C x38 (Some (W x34 x7b xb3 xd2 x25 xf3 x57 xd7)) (C x5f None (C x30 None (C x30 (Some (W x39 xe8 x12 xdc x33 xb8 x90 x27)) (C x5f None (C x30 None (C x30 (Some (W x42 xf4 x6e x0f xb0 xf1 xdf xbb)) O
(C x31 (Some (W xf5 xf5 x6e x0f xb0 xf2 xdf xbb)) O
(C x32 (Some (W xdc xf0 x6e x0f xb0 xef xdf xbb)) O
O)))
O)
O)
(C x31 (Some (W x86 xe6 x12 xdc x33 xb7 x90 x27)) (C x5f None (C x30 None (C x30 (Some (W xb3 x97 xef x72 xa8 xa7 x33 x64)) O
(C x31 (Some (W x00 x96 xef x72 xa8 xa6 x33 x64)) O
(C x32 (Some (W x19 x9b xef x72 xa8 xa9 x33 x64)) O
O)))
O)
O)
(C x32 (Some (W xd3 xe4 x12 xdc x33 xb6 x90 x27)) (C x5f None (C x30 None (C x30 (Some (W x64 x0d x87 x29 x9d xbd xb1 x8e)) O
(C x31 (Some (W x17 x0f x87 x29 x9d xbe xb1 x8e)) O
(C x32 (Some (W xca x10 x87 x29 x9d xbf xb1 x8e)) O
O)))
O)
O)
O)))
O)
O)
(C x39 (Some (W xe7 x7c xb3 xd2 x25 xf4 x57 xd7)) (C x5f None (C x30 None (C x30 (Some (W xe8 xfd x7c x3d x3a xc2 x97 x53)) (C x5f None (C x30 None (C x30 (Some (W xfd x21 xcf xe1 xa8 x92 xaa xd7)) O
(C x31 (Some (W x4a x20 xcf xe1 xa8 x91 xaa xd7)) O
(C x32 (Some (W x97 x1e xcf xe1 xa8 x90 xaa xd7)) O
O)))
O)
O)
(C x31 (Some (W x9b xff x7c x3d x3a xc3 x97 x53)) (C x5f None (C x30 None (C x30 (Some (W x0c x96 xa9 xf2 xb2 xbc x80 x84)) O
(C x31 (Some (W xbf x97 xa9 xf2 xb2 xbd x80 x84)) O
(C x32 (Some (W x72 x99 xa9 xf2 xb2 xbe x80 x84)) O
O)))
O)
O)
(C x32 (Some (W x4e x01 x7d x3d x3a xc4 x97 x53)) (C x5f None (C x30 None (C x30 (Some (W x5b xb3 xb7 x53 xb9 x46 x1b xb0)) O
(C x31 (Some (W xa8 xb1 xb7 x53 xb9 x45 x1b xb0)) O
(C x32 (Some (W xc1 xb6 xb7 x53 xb9 x48 x1b xb0)) O
O)))
O)
O)
O)))
O)
O)
O))))))))))
O))))))))))
O)
O)
O)
O)
(C x62 None (C x6f None (C x78 None (C x5f None (C x30 None (C x30 (Some (W x49 x33 x30 x91 x2d xe3 x2d x67)) (C x5f None (C x30 None (C x30 (Some (W x52 xdc x8d x3e xc8 xfa x4b xb9)) (C x5f None (C x30 None (C x30 (Some (W xcf x66 x00 x4d x44 xaa xc3 x69)) O
(C x31 (Some (W x1c x65 x00 x4d x44 xa9 xc3 x69)) O
(C x32 (Some (W x35 x6a x00 x4d x44 xac xc3 x69)) O
O)))
O)
O)
(C x31 (Some (W x05 xde x8d x3e xc8 xfb x4b xb9)) (C x5f None (C x30 None (C x30 (Some (W xfe x4d x68 x96 x4f x34 x45 x3f)) O
(C x31 (Some (W xb1 x4f x68 x96 x4f x35 x45 x3f)) O
(C x32 (Some (W x98 x4a x68 x96 x4f x32 x45 x3f)) O
O)))
O)
O)
(C x32 (Some (W xec xd8 x8d x3e xc8 xf8 x4b xb9)) (C x5f None (C x30 None (C x30 (Some (W x71 xd5 x17 xdb x33 xf6 x52 x91)) O
(C x31 (Some (W xbe xd3 x17 xdb x33 xf5 x52 x91)) O
(C x32 (Some (W x0b xd2 x17 xdb x33 xf4 x52 x91)) O
O)))
O)
O)
O)))
O)
O)
(C x31 (Some (W x96 x31 x30 x91 x2d xe2 x2d x67)) (C x5f None (C x30 None (C x30 (Some (W x83 x98 x80 xdd xc1 xf0 xb1 x8d)) (C x5f None (C x30 None (C x30 (Some (W x54 x7a x42 xeb xb1 x10 x05 x0c)) O
(C x31 (Some (W x07 x7c x42 xeb xb1 x11 x05 x0c)) O
(C x32 (Some (W xba x7d x42 xeb xb1 x12 x05 x0c)) O
O)))
O)
O)
(C x31 (Some (W xd0 x96 x80 xdd xc1 xef xb1 x8d)) (C x5f None (C x30 None (C x30 (Some (W x05 xf7 xc4 xa0 xa6 x06 x3d x35)) O
(C x31 (Some (W x52 xf5 xc4 xa0 xa6 x05 x3d x35)) O
(C x32 (Some (W x9f xf3 xc4 xa0 xa6 x04 x3d x35)) O
O)))
O)
O)
(C x32 (Some (W xe9 x9b x80 xdd xc1 xf2 xb1 x8d)) (C x5f None (C x30 None (C x30 (Some (W xb2 xdc x2a xe9 xbf xc4 xb7 x8f)) O
(C x31 (Some (W x65 xde x2a xe9 xbf xc5 xb7 x8f)) O
(C x32 (Some (W x4c xd9 x2a xe9 xbf xc2 xb7 x8f)) O
O)))
O)
O)
O)))
O)
O)
(C x32 (Some (W xe3 x2f x30 x91 x2d xe1 x2d x67)) (C x5f None (C x30 None (C x30 (Some (W x74 x24 xa6 xcc xb7 xc6 xdb xe0)) (C x5f None (C x30 None (C x30 (Some (W x79 x20 xd8 xd9 x4d x75 xfe x7c)) O
(C x31 (Some (W xc6 x1e xd8 xd9 x4d x74 xfe x7c)) O
(C x32 (Some (W x13 x1d xd8 xd9 x4d x73 xfe x7c)) O
O)))
O)
O)
(C x31 (Some (W x27 x26 xa6 xcc xb7 xc7 xdb xe0)) (C x5f None (C x30 None (C x30 (Some (W x28 xe1 x40 x23 x59 x7f x80 x52)) O
(C x31 (Some (W xdb xe2 x40 x23 x59 x80 x80 x52)) O
(C x32 (Some (W x8e xe4 x40 x23 x59 x81 x80 x52)) O
O)))
O)
O)
(C x32 (Some (W xda x27 xa6 xcc xb7 xc8 xdb xe0)) (C x5f None (C x30 None (C x30 (Some (W x97 x72 xaa x4a x5e x49 x28 x54)) O
(C x31 (Some (W xe4 x70 xaa x4a x5e x48 x28 x54)) O
(C x32 (Some (W xfd x75 xaa x4a x5e x4b x28 x54)) O
O)))
O)
O)
O)))
O)
O)
(C x33 (Some (W x30 x2e x30 x91 x2d xe0 x2d x67)) (C x5f None (C x30 None (C x30 (Some (W x25 x07 x98 x6b xb1 x3c x41 xb5)) (C x5f None (C x30 None (C x30 (Some (W x5e xbd x98 x5d x90 xd7 x56 x22)) O
(C x31 (Some (W x11 xbf x98 x5d x90 xd8 x56 x22)) O
(C x32 (Some (W xf8 xb9 x98 x5d x90 xd5 x56 x22)) O
O)))
O)
O)
(C x31 (Some (W x72 x05 x98 x6b xb1 x3b x41 xb5)) (C x5f None (C x30 None (C x30 (Some (W x2f x68 xbe x12 x85 xcd x21 x4b)) O
(C x31 (Some (W x7c x66 xbe x12 x85 xcc x21 x4b)) O
(C x32 (Some (W x95 x6b xbe x12 x85 xcf x21 x4b)) O
O)))
O)
O)
(C x32 (Some (W xbf x03 x98 x6b xb1 x3a x41 xb5)) (C x5f None (C x30 None (C x30 (Some (W x80 x52 x54 xb1 x7e xc3 x1a x1f)) O
(C x31 (Some (W x33 x54 x54 xb1 x7e xc4 x1a x1f)) O
(C x32 (Some (W xe6 x55 x54 xb1 x7e xc5 x1a x1f)) O
O)))
O)
O)
O)))
O)
O)
(C x34 (Some (W x15 x3a x30 x91 x2d xe7 x2d x67)) (C x5f None (C x30 None (C x30 (Some (W x4e x15 x48 x95 xeb x02 xa4 xbd)) (C x5f None (C x30 None (C x30 (Some (W x5b x0f x36 x82 xd9 x80 x7e xca)) O
(C x31 (Some (W xa8 x0d x36 x82 xd9 x7f x7e xca)) O
(C x32 (Some (W xc1 x12 x36 x82 xd9 x82 x7e xca)) O
O)))
O)
O)
(C x31 (Some (W x01 x17 x48 x95 xeb x03 xa4 xbd)) (C x5f None (C x30 None (C x30 (Some (W x8a xf6 x9d xcb xe4 x0a x00 xa0)) O
(C x31 (Some (W x3d xf8 x9d xcb xe4 x0b x00 xa0)) O
(C x32 (Some (W x24 xf3 x9d xcb xe4 x08 x00 xa0)) O
O)))
O)
O)
(C x32 (Some (W xe8 x11 x48 x95 xeb x00 xa4 xbd)) (C x5f None (C x30 None (C x30 (Some (W xfd x7d x4d x10 xc9 xcc x0d xf2)) O
(C x31 (Some (W x4a x7c x4d x10 xc9 xcb x0d xf2)) O
(C x32 (Some (W x97 x7a x4d x10 xc9 xca x0d xf2)) O
O)))
O)
O)
O)))
O)
O)
(C x35 (Some (W x62 x38 x30 x91 x2d xe6 x2d x67)) (C x5f None (C x30 None (C x30 (Some (W x5f xff xde x85 xe1 xb8 x80 x12)) (C x5f None (C x30 None (C x30 (Some (W xe0 x07 x81 xc6 xab xb9 x2a xe9)) O
(C x31 (Some (W x93 x09 x81 xc6 xab xba x2a xe9)) O
(C x32 (Some (W x46 x0b x81 xc6 xab xbb x2a xe9)) O
O)))
O)
O)
(C x31 (Some (W xac xfd xde x85 xe1 xb7 x80 x12)) (C x5f None (C x30 None (C x30 (Some (W x31 x37 x01 x9e xa6 x0f x3c xe6)) O
(C x31 (Some (W x7e x35 x01 x9e xa6 x0e x3c xe6)) O
(C x32 (Some (W xcb x33 x01 x9e xa6 x0d x3c xe6)) O
O)))
O)
O)
(C x32 (Some (W xc5 x02 xdf x85 xe1 xba x80 x12)) (C x5f None (C x30 None (C x30 (Some (W xbe x04 x53 x71 xbd x4d xb3 xea)) O
(C x31 (Some (W x71 x06 x53 x71 xbd x4e xb3 xea)) O
(C x32 (Some (W x58 x01 x53 x71 xbd x4b xb3 xea)) O
O)))
O)
O)
O)))
O)
O)
(C x36 (Some (W xaf x36 x30 x91 x2d xe5 x2d x67)) (C x5f None (C x30 None (C x30 (Some (W xb0 xe9 x74 x24 xdb xae x79 xe6)) (C x5f None (C x30 None (C x30 (Some (W xa5 x45 x0a x2d xb4 xf8 x77 xf6)) O
(C x31 (Some (W xf2 x43 x0a x2d xb4 xf7 x77 xf6)) O
(C x32 (Some (W x3f x42 x0a x2d xb4 xf6 x77 xf6)) O
O)))
O)
O)
(C x31 (Some (W x63 xeb x74 x24 xdb xaf x79 xe6)) (C x5f None (C x30 None (C x30 (Some (W xf4 x62 x18 x8e xba x82 x12 x22)) O
(C x31 (Some (W xa7 x64 x18 x8e xba x83 x12 x22)) O
(C x32 (Some (W x5a x66 x18 x8e xba x84 x12 x22)) O
O)))
O)
O)
(C x32 (Some (W x16 xed x74 x24 xdb xb0 x79 xe6)) (C x5f None (C x30 None (C x30 (Some (W x03 xd7 xf2 x9e xc4 xac xe8 xce)) O
(C x31 (Some (W x50 xd5 xf2 x9e xc4 xab xe8 xce)) O
(C x32 (Some (W x69 xda xf2 x9e xc4 xae xe8 xce)) O
O)))
O)
O)
O)))
O)
O)
(C x37 (Some (W xfc x34 x30 x91 x2d xe4 x2d x67)) (C x5f None (C x30 None (C x30 (Some (W xc1 x9c xf7 xd9 xcf xc4 xb1 x0f)) (C x5f None (C x30 None (C x30 (Some (W x4a x78 xd1 x0f xfb xd7 xe4 xff)) O
(C x31 (Some (W xfd x79 xd1 x0f xfb xd8 xe4 xff)) O
(C x32 (Some (W xe4 x74 xd1 x0f xfb xd5 xe4 xff)) O
O)))
O)
O)
(C x31 (Some (W x0e x9b xf7 xd9 xcf xc3 xb1 x0f)) (C x5f None (C x30 None (C x30 (Some (W x1b x3c x68 xae xf4 x4d xde xd3)) O
(C x31 (Some (W x68 x3a x68 xae xf4 x4c xde xd3)) O
(C x32 (Some (W x81 x3f x68 xae xf4 x4f xde xd3)) O
O)))
O)
O)
(C x32 (Some (W x5b x99 xf7 xd9 xcf xc2 xb1 x0f)) (C x5f None (C x30 None (C x30 (Some (W xcc x73 x5b x65 xe9 xc3 xc8 xfe)) O
(C x31 (Some (W x7f x75 x5b x65 xe9 xc4 xc8 xfe)) O
(C x32 (Some (W x32 x77 x5b x65 xe9 xc5 xc8 xfe)) O
O)))
O)
O)
O)))
O)
O)
(C x38 (Some (W xe1 x40 x30 x91 x2d xeb x2d x67)) (C x5f None (C x30 None (C x30 (Some (W xaa x10 x18 x3f x0b xcb x25 x44)) (C x5f None (C x30 None (C x30 (Some (W xe7 x52 x84 x27 x18 x1f x5c xd3)) O
(C x31 (Some (W x34 x51 x84 x27 x18 x1e x5c xd3)) O
(C x32 (Some (W x4d x56 x84 x27 x18 x21 x5c xd3)) O
O)))
O)
O)
(C x31 (Some (W x5d x12 x18 x3f x0b xcc x25 x44)) (C x5f None (C x30 None (C x30 (Some (W x96 xb5 x91 x4e x1d x49 x97 xd4)) O
(C x31 (Some (W x49 xb7 x91 x4e x1d x4a x97 xd4)) O
(C x32 (Some (W x30 xb2 x91 x4e x1d x47 x97 xd4)) O
O)))
O)
O)
(C x32 (Some (W x44 x0d x18 x3f x0b xc9 x25 x44)) (C x5f None (C x30 None (C x30 (Some (W x49 x3d x40 x41 x05 x4b xc1 xa5)) O
(C x31 (Some (W x96 x3b x40 x41 x05 x4a xc1 xa5)) O
(C x32 (Some (W xe3 x39 x40 x41 x05 x49 xc1 xa5)) O
O)))
O)
O)
O)))
O)
O)
(C x39 (Some (W x2e x3f x30 x91 x2d xea x2d x67)) (C x5f None (C x30 None (C x30 (Some (W xfb xfa xad xdd x04 xc1 x1e x18)) (C x5f None (C x30 None (C x30 (Some (W x2c x0c xb3 x6b x1a xfe x62 x0c)) O
(C x31 (Some (W xdf x0d xb3 x6b x1a xff x62 x0c)) O
(C x32 (Some (W x92 x0f xb3 x6b x1a x00 x63 x0c)) O
O)))
O)
O)
(C x31 (Some (W x48 xf9 xad xdd x04 xc0 x1e x18)) (C x5f None (C x30 None (C x30 (Some (W x1d x82 x49 xd0 x12 x54 xfd xb5)) O
(C x31 (Some (W x6a x80 x49 xd0 x12 x53 xfd xb5)) O
(C x32 (Some (W xb7 x7e x49 xd0 x12 x52 xfd xb5)) O
O)))
O)
O)
(C x32 (Some (W x61 xfe xad xdd x04 xc3 x1e x18)) (C x5f None (C x30 None (C x30 (Some (W x2a xa5 x9a x17 x2c x12 x32 x0f)) O
(C x31 (Some (W xdd xa6 x9a x17 x2c x13 x32 x0f)) O
(C x32 (Some (W xc4 xa1 x9a x17 x2c x10 x32 x0f)) O
O)))
O)
O)
O)))
O)
O)
O))))))))))
(C x31 None (C x30 (Some (W xc0 x19 x2d x91 x2d x5d x2a x67)) (C x5f None (C x30 None (C x30 (Some (W x35 xfe xd6 x52 x93 x5c x32 x49)) (C x5f None (C x30 None (C x30 (Some (W x2e x34 xdd xdf x92 x5c x26 x43)) O
(C x31 (Some (W xe1 x35 xdd xdf x92 x5d x26 x43)) O
(C x32 (Some (W xc8 x30 xdd xdf x92 x5a x26 x43)) O
O)))
O)
O)
(C x31 (Some (W x82 xfc xd6 x52 x93 x5b x32 x49)) (C x5f None (C x30 None (C x30 (Some (W xbf x73 x73 x44 x8b x92 xc0 xec)) O
(C x31 (Some (W x0c x72 x73 x44 x8b x91 xc0 xec)) O
(C x32 (Some (W x25 x77 x73 x44 x8b x94 xc0 xec)) O
O)))
O)
O)
(C x32 (Some (W xcf xfa xd6 x52 x93 x5a x32 x49)) (C x5f None (C x30 None (C x30 (Some (W x10 xf8 x99 xf9 x7f x08 x8c x15)) O
(C x31 (Some (W xc3 xf9 x99 xf9 x7f x09 x8c x15)) O
(C x32 (Some (W x76 xfb x99 xf9 x7f x0a x8c x15)) O
O)))
O)
O)
O)))
O)
O)
(C x31 (Some (W x73 x1b x2d x91 x2d x5e x2a x67)) (C x5f None (C x30 None (C x30 (Some (W x44 x81 x55 xef x9a x26 xde xa0)) (C x5f None (C x30 None (C x30 (Some (W x49 xb9 x64 x9f x20 x58 xe1 x47)) O
(C x31 (Some (W x96 xb7 x64 x9f x20 x57 xe1 x47)) O
(C x32 (Some (W xe3 xb5 x64 x9f x20 x56 xe1 x47)) O
O)))
O)
O)
(C x31 (Some (W xf7 x82 x55 xef x9a x27 xde xa0)) (C x5f None (C x30 None (C x30 (Some (W xb8 x79 xce x3a x28 x22 x47 x9e)) O
(C x31 (Some (W x6b x7b xce x3a x28 x23 x47 x9e)) O
(C x32 (Some (W x1e x7d xce x3a x28 x24 x47 x9e)) O
O)))
O)
O)
(C x32 (Some (W xaa x84 x55 xef x9a x28 xde xa0)) (C x5f None (C x30 None (C x30 (Some (W xe7 xce xa8 x85 x33 x2c x7c x75)) O
(C x31 (Some (W x34 xcd xa8 x85 x33 x2b x7c x75)) O
(C x32 (Some (W x4d xd2 xa8 x85 x33 x2e x7c x75)) O
O)))
O)
O)
O)))
O)
O)
(C x32 (Some (W x26 x1d x2d x91 x2d x5f x2a x67)) (C x5f None (C x30 None (C x30 (Some (W x93 x0b xbe x38 xa6 x10 x60 x76)) (C x5f None (C x30 None (C x30 (Some (W x24 xc5 x8b x4b x00 xab xb0 x7a)) O
(C x31 (Some (W xd7 xc6 x8b x4b x00 xac xb0 x7a)) O
(C x32 (Some (W x8a xc8 x8b x4b x00 xad xb0 x7a)) O
O)))
O)
O)
(C x31 (Some (W xe0 x09 xbe x38 xa6 x0f x60 x76)) (C x5f None (C x30 None (C x30 (Some (W x15 x81 x7f x3c xf6 x60 xfa xcf)) O
(C x31 (Some (W x62 x7f x7f x3c xf6 x5f xfa xcf)) O
(C x32 (Some (W xaf x7d x7f x3c xf6 x5e xfa xcf)) O
O)))
O)
O)
(C x32 (Some (W xf9 x0e xbe x38 xa6 x12 x60 x76)) (C x5f None (C x30 None (C x30 (Some (W x02 x01 x75 x49 x0e xdf x63 xfe)) O
(C x31 (Some (W xb5 x02 x75 x49 x0e xe0 x63 xfe)) O
(C x32 (Some (W x9c xfd x74 x49 x0e xdd x63 xfe)) O
O)))
O)
O)
O)))
O)
O)
(C x33 (Some (W xd9 x1e x2d x91 x2d x60 x2a x67)) (C x5f None (C x30 None (C x30 (Some (W xa2 xa4 xcb x5f xab x5a x9b x77)) (C x5f None (C x30 None (C x30 (Some (W x9f x23 xd7 xde xda x77 xf2 x31)) O
(C x31 (Some (W xec x21 xd7 xde xda x76 xf2 x31)) O
(C x32 (Some (W x05 x27 xd7 xde xda x79 xf2 x31)) O
O)))
O)
O)
(C x31 (Some (W x55 xa6 xcb x5f xab x5b x9b x77)) (C x5f None (C x30 None (C x30 (Some (W x8e x8e x41 x06 xe0 xc1 x9a x33)) O
(C x31 (Some (W x41 x90 x41 x06 xe0 xc2 x9a x33)) O
(C x32 (Some (W x28 x8b x41 x06 xe0 xbf x9a x33)) O
O)))
O)
O)
(C x32 (Some (W x3c xa1 xcb x5f xab x58 x9b x77)) (C x5f None (C x30 None (C x30 (Some (W x01 xc1 xef x32 xc9 x83 x23 x2f)) O
(C x31 (Some (W x4e xbf xef x32 xc9 x82 x23 x2f)) O
(C x32 (Some (W x9b xbd xef x32 xc9 x81 x23 x2f)) O
O)))
O)
O)
O)))
O)
O)
(C x34 (Some (W x8c x20 x2d x91 x2d x61 x2a x67)) (C x5f None (C x30 None (C x30 (Some (W xd1 xf9 xa5 xaa xb6 x64 xd0 x4e)) (C x5f None (C x30 None (C x30 (Some (W x1a x7f x25 x12 xff xa0 xe7 x12)) O
(C x31 (Some (W xcd x80 x25 x12 xff xa1 xe7 x12)) O
(C x32 (Some (W xb4 x7b x25 x12 xff x9e xe7 x12)) O
O)))
O)
O)
(C x31 (Some (W x1e xf8 xa5 xaa xb6 x63 xd0 x4e)) (C x5f None (C x30 None (C x30 (Some (W xeb xd4 x49 xaf xf8 x96 x2d xe5)) O
(C x31 (Some (W x38 xd3 x49 xaf xf8 x95 x2d xe5)) O
(C x32 (Some (W x51 xd8 x49 xaf xf8 x98 x2d xe5)) O
O)))
O)
O)
(C x32 (Some (W x6b xf6 xa5 xaa xb6 x62 xd0 x4e)) (C x5f None (C x30 None (C x30 (Some (W xdc x90 x3d xa0 xee x4c x77 x3a)) O
(C x31 (Some (W x8f x92 x3d xa0 xee x4d x77 x3a)) O
(C x32 (Some (W x42 x94 x3d xa0 xee x4e x77 x3a)) O
O)))
O)
O)
O)))
O)
O)
(C x35 (Some (W x3f x22 x2d x91 x2d x62 x2a x67)) (C x5f None (C x30 None (C x30 (Some (W x00 xb2 xb2 x45 xbe x0e xc9 xa4)) (C x5f None (C x30 None (C x30 (Some (W x75 x86 xe2 x4a x48 xc6 xe9 x69)) O
(C x31 (Some (W xc2 x84 xe2 x4a x48 xc5 xe9 x69)) O
(C x32 (Some (W x0f x83 xe2 x4a x48 xc4 xe9 x69)) O
O)))
O)
O)
(C x31 (Some (W xb3 xb3 xb2 x45 xbe x0f xc9 xa4)) (C x5f None (C x30 None (C x30 (Some (W x84 x09 x61 xe7 x4f x90 x95 xc1)) O
(C x31 (Some (W x37 x0b x61 xe7 x4f x91 x95 xc1)) O
(C x32 (Some (W xea x0c x61 xe7 x4f x92 x95 xc1)) O
O)))
O)
O)
(C x32 (Some (W x66 xb5 xb2 x45 xbe x10 xc9 xa4)) (C x5f None (C x30 None (C x30 (Some (W xd3 xe8 xca x48 x56 x7a x9c xed)) O
(C x31 (Some (W x20 xe7 xca x48 x56 x79 x9c xed)) O
(C x32 (Some (W x39 xec xca x48 x56 x7c x9c xed)) O
O)))
O)
O)
O)))
O)
O)
(C x36 (Some (W xf2 x23 x2d x91 x2d x63 x2a x67)) (C x5f None (C x30 None (C x30 (Some (W xaf xc7 x1c xa7 xc4 x18 xd0 xd0)) (C x5f None (C x30 None (C x30 (Some (W xb0 xc4 x57 x58 x42 x87 x59 xb1)) O
(C x31 (Some (W x63 xc6 x57 x58 x42 x88 x59 xb1)) O
(C x32 (Some (W x16 xc8 x57 x58 x42 x89 x59 xb1)) O
O)))
O)
O)
(C x31 (Some (W xfc xc5 x1c xa7 xc4 x17 xd0 xd0)) (C x5f None (C x30 None (C x30 (Some (W xc1 x77 xda x0d x37 x9d x91 xda)) O
(C x31 (Some (W x0e x76 xda x0d x37 x9c x91 xda)) O
(C x32 (Some (W x5b x74 xda x0d x37 x9b x91 xda)) O
O)))
O)
O)
(C x32 (Some (W x15 xcb x1c xa7 xc4 x1a xd0 xd0)) (C x5f None (C x30 None (C x30 (Some (W x4e xf0 x2a xc9 x52 xdb x83 x88)) O
(C x31 (Some (W x01 xf2 x2a xc9 x52 xdc x83 x88)) O
(C x32 (Some (W xe8 xec x2a xc9 x52 xd9 x83 x88)) O
O)))
O)
O)
O)))
O)
O)
(C x37 (Some (W xa5 x25 x2d x91 x2d x64 x2a x67)) (C x5f None (C x30 None (C x30 (Some (W xde x1c xf7 xf1 xcf x22 x05 xa8)) (C x5f None (C x30 None (C x30 (Some (W xab x8b x34 x8a x66 xb0 x9b x90)) O
(C x31 (Some (W xf8 x89 x34 x8a x66 xaf x9b x90)) O
(C x32 (Some (W x11 x8f x34 x8a x66 xb2 x9b x90)) O
O)))
O)
O)
(C x31 (Some (W x91 x1e xf7 xf1 xcf x23 x05 xa8)) (C x5f None (C x30 None (C x30 (Some (W xda xe0 x0e xd5 x71 xba xd0 x67)) O
(C x31 (Some (W x8d xe2 x0e xd5 x71 xbb xd0 x67)) O
(C x32 (Some (W x74 xdd x0e xd5 x71 xb8 xd0 x67)) O
O)))
O)
O)
(C x32 (Some (W x78 x19 xf7 xf1 xcf x20 x05 xa8)) (C x5f None (C x30 None (C x30 (Some (W x4d x68 xbe x19 x56 x7c xde xb9)) O
(C x31 (Some (W x9a x66 xbe x19 x56 x7b xde xb9)) O
(C x32 (Some (W xe7 x64 xbe x19 x56 x7a xde xb9)) O
O)))
O)
O)
O)))
O)
O)
(C x38 (Some (W x58 x27 x2d x91 x2d x65 x2a x67)) (C x5f None (C x30 None (C x30 (Some (W xed xb5 x04 x19 xd5 x6c x40 xa9)) (C x5f None (C x30 None (C x30 (Some (W xa6 x10 x7f x1d x41 xfd xdc x47)) O
(C x31 (Some (W x59 x12 x7f x1d x41 xfe xdc x47)) O
(C x32 (Some (W x40 x0d x7f x1d x41 xfb xdc x47)) O
O)))
O)
O)
(C x31 (Some (W x3a xb4 x04 x19 xd5 x6b x40 xa9)) (C x5f None (C x30 None (C x30 (Some (W x37 x03 x72 xbc x3a x13 x43 x1c)) O
(C x31 (Some (W x84 x01 x72 xbc x3a x12 x43 x1c)) O
(C x32 (Some (W x9d x06 x72 xbc x3a x15 x43 x1c)) O
O)))
O)
O)
(C x32 (Some (W x87 xb2 x04 x19 xd5 x6a x40 xa9)) (C x5f None (C x30 None (C x30 (Some (W xc8 x42 x08 x21 x33 x49 xdd xc5)) O
(C x31 (Some (W x7b x44 x08 x21 x33 x4a xdd xc5)) O
(C x32 (Some (W x2e x46 x08 x21 x33 x4b xdd xc5)) O
O)))
O)
O)
O)))
O)
O)
(C x39 (Some (W x0b x29 x2d x91 x2d x66 x2a x67)) (C x5f None (C x30 None (C x30 (Some (W x3c x40 x6d x62 xe0 x56 xc2 x7e)) (C x5f None (C x30 None (C x30 (Some (W x01 xf6 xa6 xc9 x20 xd0 xac x7a)) O
(C x31 (Some (W x4e xf4 xa6 xc9 x20 xcf xac x7a)) O
(C x32 (Some (W x9b xf2 xa6 xc9 x20 xce xac x7a)) O
O)))
O)
O)
(C x31 (Some (W xef x41 x6d x62 xe0 x57 xc2 x7e)) (C x5f None (C x30 None (C x30 (Some (W xf0 x97 x25 x2c x27 xba xf9 xa7)) O
(C x31 (Some (W xa3 x99 x25 x2c x27 xbb xf9 xa7)) O
(C x32 (Some (W x56 x9b x25 x2c x27 xbc xf9 xa7)) O
O)))
O)
O)
(C x32 (Some (W xa2 x43 x6d x62 xe0 x58 xc2 x7e)) (C x5f None (C x30 None (C x30 (Some (W x9f x58 x8e x75 x32 xc4 x7b x7d)) O
(C x31 (Some (W xec x56 x8e x75 x32 xc3 x7b x7d)) O
(C x32 (Some (W x05 x5c x8e x75 x32 xc6 x7b x7d)) O
O)))
O)
O)
O)))
O)
O)
O))))))))))
(C x32 None (C x30 (Some (W x5b x66 x36 x91 x2d xef x34 x67)) (C x5f None (C x30 None (C x30 (Some (W xcc x62 xb4 x16 x32 xb7 x58 x9a)) (C x5f None (C x30 None (C x30 (Some (W x11 x65 x7b x63 x4b x30 x9e x8c)) O
(C x31 (Some (W x5e x63 x7b x63 x4b x2f x9e x8c)) O
(C x32 (Some (W xab x61 x7b x63 x4b x2e x9e x8c)) O
O)))
O)
O)
(C x31 (Some (W x7f x64 xb4 x16 x32 xb8 x58 x9a)) (C x5f None (C x30 None (C x30 (Some (W x40 x1d x88 xfe x52 xda x96 xe2)) O
(C x31 (Some (W xf3 x1e x88 xfe x52 xdb x96 xe2)) O
(C x32 (Some (W xa6 x20 x88 xfe x52 xdc x96 xe2)) O
O)))
O)
O)
(C x32 (Some (W x32 x66 xb4 x16 x32 xb9 x58 x9a)) (C x5f None (C x30 None (C x30 (Some (W xef xdd xf0 x47 x5e xe4 x18 xb8)) O
(C x31 (Some (W x3c xdc xf0 x47 x5e xe3 x18 xb8)) O
(C x32 (Some (W x55 xe1 xf0 x47 x5e xe6 x18 xb8)) O
O)))
O)
O)
O)))
O)
O)
(C x31 (Some (W xa8 x64 x36 x91 x2d xee x34 x67)) (C x5f None (C x30 None (C x30 (Some (W xbd x99 xd8 xed x2c x8d xfd x96)) (C x5f None (C x30 None (C x30 (Some (W x36 xef xd5 x2b xda xc7 x76 x3d)) O
(C x31 (Some (W xe9 xf0 xd5 x2b xda xc8 x76 x3d)) O
(C x32 (Some (W xd0 xeb xd5 x2b xda xc5 x76 x3d)) O
O)))
O)
O)
(C x31 (Some (W x0a x98 xd8 xed x2c x8c xfd x96)) (C x5f None (C x30 None (C x30 (Some (W x07 xc9 x56 x8f xd2 x9d xca xe5)) O
(C x31 (Some (W x54 xc7 x56 x8f xd2 x9c xca xe5)) O
(C x32 (Some (W x6d xcc x56 x8f xd2 x9f xca xe5)) O
O)))
O)
O)
(C x32 (Some (W x57 x96 xd8 xed x2c x8b xfd x96)) (C x5f None (C x30 None (C x30 (Some (W x58 x08 xee x45 xc7 x93 x48 x10)) O
(C x31 (Some (W x0b x0a xee x45 xc7 x94 x48 x10)) O
(C x32 (Some (W xbe x0b xee x45 xc7 x95 x48 x10)) O
O)))
O)
O)
O)))
O)
O)
(C x32 (Some (W xc1 x69 x36 x91 x2d xf1 x34 x67)) (C x5f None (C x30 None (C x30 (Some (W x4a x67 x2a xc1 x43 xcb x74 x9b)) (C x5f None (C x30 None (C x30 (Some (W x47 x63 x5e x71 xc9 x9d x06 x46)) O
(C x31 (Some (W x94 x61 x5e x71 xc9 x9c x06 x46)) O
(C x32 (Some (W xad x66 x5e x71 xc9 x9f x06 x46)) O
O)))
O)
O)
(C x31 (Some (W xfd x68 x2a xc1 x43 xcc x74 x9b)) (C x5f None (C x30 None (C x30 (Some (W x76 x89 xdd x0d xd1 xc7 xb2 x9d)) O
(C x31 (Some (W x29 x8b xdd x0d xd1 xc8 xb2 x9d)) O
(C x32 (Some (W x10 x86 xdd x0d xd1 xc5 xb2 x9d)) O
O)))
O)
O)
(C x32 (Some (W xe4 x63 x2a xc1 x43 xc9 x74 x9b)) (C x5f None (C x30 None (C x30 (Some (W x29 x11 x8c x00 xb9 xc9 xdc x6e)) O
(C x31 (Some (W x76 x0f x8c x00 xb9 xc8 xdc x6e)) O
(C x32 (Some (W xc3 x0d x8c x00 xb9 xc7 xdc x6e)) O
O)))
O)
O)
O)))
O)
O)
(C x33 (Some (W x0e x68 x36 x91 x2d xf0 x34 x67)) (C x5f None (C x30 None (C x30 (Some (W x1b x2b xc1 x5f x3d x41 x6e x6f)) (C x5f None (C x30 None (C x30 (Some (W x8c xa4 xdb xb9 xfb x80 x91 x27)) O
(C x31 (Some (W x3f xa6 xdb xb9 xfb x81 x91 x27)) O
(C x32 (Some (W xf2 xa7 xdb xb9 xfb x82 x91 x27)) O
O)))
O)
O)
(C x31 (Some (W x68 x29 xc1 x5f x3d x40 x6e x6f)) (C x5f None (C x30 None (C x30 (Some (W x7d x30 x01 xa9 xf1 x56 xbb x7a)) O
(C x31 (Some (W xca x2e x01 xa9 xf1 x55 xbb x7a)) O
(C x32 (Some (W x17 x2d x01 xa9 xf1 x54 xbb x7a)) O
O)))
O)
O)
(C x32 (Some (W x81 x2e xc1 x5f x3d x43 x6e x6f)) (C x5f None (C x30 None (C x30 (Some (W x0a xa9 x51 x64 x0d x95 xad x28)) O
(C x31 (Some (W xbd xaa x51 x64 x0d x96 xad x28)) O
(C x32 (Some (W xa4 xa5 x51 x64 x0d x93 xad x28)) O
O)))
O)
O)
O)))
O)
O)
(C x34 (Some (W x27 x6d x36 x91 x2d xf3 x34 x67)) (C x5f None (C x30 None (C x30 (Some (W x28 x4e x12 xa7 x56 xff xa2 xc8)) (C x5f None (C x30 None (C x30 (Some (W x3d x92 xea x6b x64 x70 xa4 xcf)) O
(C x31 (Some (W x8a x90 xea x6b x64 x6f xa4 xcf)) O
(C x32 (Some (W xd7 x8e xea x6b x64 x6e xa4 xcf)) O
O)))
O)
O)
(C x31 (Some (W xdb x4f x12 xa7 x56 x00 xa3 xc8)) (C x5f None (C x30 None (C x30 (Some (W x4c x5b xc6 x94 x69 x9a xff xd2)) O
(C x31 (Some (W xff x5c xc6 x94 x69 x9b xff xd2)) O
(C x32 (Some (W xb2 x5e xc6 x94 x69 x9c xff xd2)) O
O)))
O)
O)
(C x32 (Some (W x8e x51 x12 xa7 x56 x01 xa3 xc8)) (C x5f None (C x30 None (C x30 (Some (W x9b x23 xd3 xdd x74 x24 x15 xa8)) O
(C x31 (Some (W xe8 x21 xd3 xdd x74 x23 x15 xa8)) O
(C x32 (Some (W x01 x27 xd3 xdd x74 x26 x15 xa8)) O
O)))
O)
O)
O)))
O)
O)
(C x35 (Some (W x74 x6b x36 x91 x2d xf2 x34 x67)) (C x5f None (C x30 None (C x30 (Some (W x79 x8d xa9 x5d x4b xf5 x20 xf3)) (C x5f None (C x30 None (C x30 (Some (W x82 x80 xc5 xbf x78 x9c xfa x73)) O
(C x31 (Some (W x35 x82 xc5 xbf x78 x9d xfa x73)) O
(C x32 (Some (W x1c x7d xc5 xbf x78 x9a xfa x73)) O
O)))
O)
O)
(C x31 (Some (W xc6 x8b xa9 x5d x4b xf4 x20 xf3)) (C x5f None (C x30 None (C x30 (Some (W xf3 x23 x46 x23 x71 x52 x4e x1c)) O
(C x31 (Some (W x40 x22 x46 x23 x71 x51 x4e x1c)) O
(C x32 (Some (W x59 x27 x46 x23 x71 x54 x4e x1c)) O
O)))
O)
O)
(C x32 (Some (W x13 x8a xa9 x5d x4b xf3 x20 xf3)) (C x5f None (C x30 None (C x30 (Some (W xa4 x44 xdc xc1 x6a x68 x47 xf0)) O
(C x31 (Some (W x57 x46 xdc xc1 x6a x69 x47 xf0)) O
(C x32 (Some (W x0a x48 xdc xc1 x6a x6a x47 xf0)) O
O)))
O)
O)
O)))
O)
O)
(C x36 (Some (W x8d x70 x36 x91 x2d xf5 x34 x67)) (C x5f None (C x30 None (C x30 (Some (W x06 x06 xfa x18 x67 x33 x13 xa1)) (C x5f None (C x30 None (C x30 (Some (W x33 xa2 x12 xdf x5a x85 x69 xbc)) O
(C x31 (Some (W x80 xa0 x12 xdf x5a x84 x69 xbc)) O
(C x32 (Some (W x99 xa5 x12 xdf x5a x87 x69 xbc)) O
O)))
O)
O)
(C x31 (Some (W xb9 x07 xfa x18 x67 x34 x13 xa1)) (C x5f None (C x30 None (C x30 (Some (W xc2 xfe x91 x7b x62 xcf x15 x14)) O
(C x31 (Some (W x75 x00 x92 x7b x62 xd0 x15 x14)) O
(C x32 (Some (W x5c xfb x91 x7b x62 xcd x15 x14)) O
O)))
O)
O)
(C x32 (Some (W xa0 x02 xfa x18 x67 x31 x13 xa1)) (C x5f None (C x30 None (C x30 (Some (W xd5 x7e x9c x6e x4a x51 xac xe5)) O
(C x31 (Some (W x22 x7d x9c x6e x4a x50 xac xe5)) O
(C x32 (Some (W x6f x7b x9c x6e x4a x4f xac xe5)) O
O)))
O)
O)
O)))
O)
O)
(C x37 (Some (W xda x6e x36 x91 x2d xf4 x34 x67)) (C x5f None (C x30 None (C x30 (Some (W x97 xdf x7b xce x5b xc9 x4a xca)) (C x5f None (C x30 None (C x30 (Some (W x98 xcb x6c xe2 x77 x20 x92 xf4)) O
(C x31 (Some (W x4b xcd x6c xe2 x77 x21 x92 xf4)) O
(C x32 (Some (W xfe xce x6c xe2 x77 x22 x92 xf4)) O
O)))
O)
O)
(C x31 (Some (W xe4 xdd x7b xce x5b xc8 x4a xca)) (C x5f None (C x30 None (C x30 (Some (W x29 x8f x04 xd3 x6d x56 x6f x49)) O
(C x31 (Some (W x76 x8d x04 xd3 x6d x55 x6f x49)) O
(C x32 (Some (W xc3 x8b x04 xd3 x6d x54 x6f x49)) O
O)))
O)
O)
(C x32 (Some (W xfd xe2 x7b xce x5b xcb x4a xca)) (C x5f None (C x30 None (C x30 (Some (W x76 x07 x56 xe0 x85 x54 x45 x78)) O
(C x31 (Some (W x29 x09 x56 xe0 x85 x55 x45 x78)) O
(C x32 (Some (W x10 x04 x56 xe0 x85 x52 x45 x78)) O
O)))
O)
O)
O)))
O)
O)
(C x38 (Some (W xc3 x58 x36 x91 x2d xe7 x34 x67)) (C x5f None (C x30 None (C x30 (Some (W x94 x0f x2a x50 xf0 xc6 xdd x39)) (C x5f None (C x30 None (C x30 (Some (W x59 x0d x66 xb3 x42 x89 x95 xf0)) O
(C x31 (Some (W xa6 x0b x66 xb3 x42 x88 x95 xf0)) O
(C x32 (Some (W xf3 x09 x66 xb3 x42 x87 x95 xf0)) O
O)))
O)
O)
(C x31 (Some (W x47 x11 x2a x50 xf0 xc7 xdd x39)) (C x5f None (C x30 None (C x30 (Some (W x88 xb7 x41 x16 x49 x93 x4f x1e)) O
(C x31 (Some (W x3b xb9 x41 x16 x49 x94 x4f x1e)) O
(C x32 (Some (W xee xba x41 x16 x49 x95 x4f x1e)) O
O)))
O)
O)
(C x32 (Some (W xfa x12 x2a x50 xf0 xc8 xdd x39)) (C x5f None (C x30 None (C x30 (Some (W xf7 x77 xab xb1 x50 x5d xb5 x74)) O
(C x31 (Some (W x44 x76 xab xb1 x50 x5c xb5 x74)) O
(C x32 (Some (W x5d x7b xab xb1 x50 x5f xb5 x74)) O
O)))
O)
O)
O)))
O)
O)
(C x39 (Some (W x10 x57 x36 x91 x2d xe6 x34 x67)) (C x5f None (C x30 None (C x30 (Some (W x45 x37 xab xed xe9 xbc x90 x0c)) (C x5f None (C x30 None (C x30 (Some (W x3e x16 x51 xc2 x6c x5a x57 x92)) O
(C x31 (Some (W xf1 x17 x51 xc2 x6c x5b x57 x92)) O
(C x32 (Some (W xd8 x12 x51 xc2 x6c x58 x57 x92)) O
O)))
O)
O)
(C x31 (Some (W x92 x35 xab xed xe9 xbb x90 x0c)) (C x5f None (C x30 None (C x30 (Some (W x0f xda xe7 x60 x66 xd0 x50 x66)) O
(C x31 (Some (W x5c xd8 xe7 x60 x66 xcf x50 x66)) O
(C x32 (Some (W x75 xdd xe7 x60 x66 xd2 x50 x66)) O
O)))
O)
O)
(C x32 (Some (W xdf x33 xab xed xe9 xba x90 x0c)) (C x5f None (C x30 None (C x30 (Some (W x60 x19 x7f x17 x5b xc6 xce x90)) O
(C x31 (Some (W x13 x1b x7f x17 x5b xc7 xce x90)) O
(C x32 (Some (W xc6 x1c x7f x17 x5b xc8 xce x90)) O
O)))
O)
O)
O)))
O)
O)
O))))))))))
(C x33 None (C x30 (Some (W xd2 x4c x33 x91 x2d x69 x31 x67)) (C x5f None (C x30 None (C x30 (Some (W x4f x8c xa1 x2a xfd x98 xd2 x29)) (C x5f None (C x30 None (C x30 (Some (W x90 x28 xc6 x64 x5d x1f xcc x78)) O
(C x31 (Some (W x43 x2a xc6 x64 x5d x20 xcc x78)) O
(C x32 (Some (W xf6 x2b xc6 x64 x5d x21 xcc x78)) O
O)))
O)
O)
(C x31 (Some (W x9c x8a xa1 x2a xfd x97 xd2 x29)) (C x5f None (C x30 None (C x30 (Some (W xa1 x41 xb8 x03 x57 xb5 x31 x4d)) O
(C x31 (Some (W xee x3f xb8 x03 x57 xb4 x31 x4d)) O
(C x32 (Some (W x3b x3e xb8 x03 x57 xb3 x31 x4d)) O
O)))
O)
O)
(C x32 (Some (W xb5 x8f xa1 x2a xfd x9a xd2 x29)) (C x5f None (C x30 None (C x30 (Some (W xae x64 x09 x4b x70 x73 x66 xa6)) O
(C x31 (Some (W x61 x66 x09 x4b x70 x74 x66 xa6)) O
(C x32 (Some (W x48 x61 x09 x4b x70 x71 x66 xa6)) O
O)))
O)
O)
O)))
O)
O)
(C x31 (Some (W x85 x4e x33 x91 x2d x6a x31 x67)) (C x5f None (C x30 None (C x30 (Some (W x7e x73 x09 x74 x08 x23 x54 xff)) (C x5f None (C x30 None (C x30 (Some (W x0b x86 x7f x49 x1a xaf xb6 x59)) O
(C x31 (Some (W x58 x84 x7f x49 x1a xae xb6 x59)) O
(C x32 (Some (W x71 x89 x7f x49 x1a xb1 xb6 x59)) O
O)))
O)
O)
(C x31 (Some (W x31 x75 x09 x74 x08 x24 x54 xff)) (C x5f None (C x30 None (C x30 (Some (W xba x46 xe8 x92 x25 xb9 x38 x2f)) O
(C x31 (Some (W x6d x48 xe8 x92 x25 xba x38 x2f)) O
(C x32 (Some (W x54 x43 xe8 x92 x25 xb7 x38 x2f)) O
O)))
O)
O)
(C x32 (Some (W x18 x70 x09 x74 x08 x21 x54 xff)) (C x5f None (C x30 None (C x30 (Some (W xad x23 x97 x4b x0c xfb x03 xd6)) O
(C x31 (Some (W xfa x21 x97 x4b x0c xfa x03 xd6)) O
(C x32 (Some (W x47 x20 x97 x4b x0c xf9 x03 xd6)) O
O)))
O)
O)
O)))
O)
O)
(C x32 (Some (W x6c x49 x33 x91 x2d x67 x31 x67)) (C x5f None (C x30 None (C x30 (Some (W xf1 xfa xb8 xb8 xec xe4 x61 x51)) (C x5f None (C x30 None (C x30 (Some (W x7a xc8 x1b xd7 x3b x86 x1d x8f)) O
(C x31 (Some (W x2d xca x1b xd7 x3b x87 x1d x8f)) O
(C x32 (Some (W x14 xc5 x1b xd7 x3b x84 x1d x8f)) O
O)))
O)
O)
(C x31 (Some (W x3e xf9 xb8 xb8 xec xe3 x61 x51)) (C x5f None (C x30 None (C x30 (Some (W xcb xb2 xb1 x75 x35 x7c x16 x63)) O
(C x31 (Some (W x18 xb1 xb1 x75 x35 x7b x16 x63)) O
(C x32 (Some (W x31 xb6 xb1 x75 x35 x7e x16 x63)) O
O)))
O)
O)
(C x32 (Some (W x8b xf7 xb8 xb8 xec xe2 x61 x51)) (C x5f None (C x30 None (C x30 (Some (W xbc x2f x33 xd9 x2d xb2 x6a x0b)) O
(C x31 (Some (W x6f x31 x33 xd9 x2d xb3 x6a x0b)) O
(C x32 (Some (W x22 x33 x33 xd9 x2d xb4 x6a x0b)) O
O)))
O)
O)
O)))
O)
O)
(C x33 (Some (W x1f x4b x33 x91 x2d x68 x31 x67)) (C x5f None (C x30 None (C x30 (Some (W xa0 x76 x37 xc9 xf6 x8e xcb xfd)) (C x5f None (C x30 None (C x30 (Some (W xd5 xfa xc0 xcc x65 x5e xcc x87)) O
(C x31 (Some (W x22 xf9 xc0 xcc x65 x5d xcc x87)) O
(C x32 (Some (W x6f xf7 xc0 xcc x65 x5c xcc x87)) O
O)))
O)
O)
(C x31 (Some (W x53 x78 x37 xc9 xf6 x8f xcb xfd)) (C x5f None (C x30 None (C x30 (Some (W xe4 x93 xce xf3 x6a xa8 x07 x89)) O
(C x31 (Some (W x97 x95 xce xf3 x6a xa9 x07 x89)) O
(C x32 (Some (W x4a x97 xce xf3 x6a xaa x07 x89)) O
O)))
O)
O)
(C x32 (Some (W x06 x7a x37 xc9 xf6 x90 xcb xfd)) (C x5f None (C x30 None (C x30 (Some (W x33 x1e x37 x3d x76 x92 x89 x5e)) O
(C x31 (Some (W x80 x1c x37 x3d x76 x91 x89 x5e)) O
(C x32 (Some (W x99 x21 x37 x3d x76 x94 x89 x5e)) O
O)))
O)
O)
O)))
O)
O)
(C x34 (Some (W x06 x46 x33 x91 x2d x65 x31 x67)) (C x5f None (C x30 None (C x30 (Some (W x33 x62 xd0 xba xde x10 xaf xcd)) (C x5f None (C x30 None (C x30 (Some (W x04 x99 xd7 x0a xb4 x29 xcc x43)) O
(C x31 (Some (W xb7 x9a xd7 x0a xb4 x2a xcc x43)) O
(C x32 (Some (W x6a x9c xd7 x0a xb4 x2b xcc x43)) O
O)))
O)
O)
(C x31 (Some (W x80 x60 xd0 xba xde x0f xaf xcd)) (C x5f None (C x30 None (C x30 (Some (W xf5 x15 x59 x6e xac x5f x20 xec)) O
(C x31 (Some (W x42 x14 x59 x6e xac x5e x20 xec)) O
(C x32 (Some (W x8f x12 x59 x6e xac x5d x20 xec)) O
O)))
O)
O)
(C x32 (Some (W x99 x65 xd0 xba xde x12 xaf xcd)) (C x5f None (C x30 None (C x30 (Some (W x62 xbc x4d x7b xc4 x5d x89 x1a)) O
(C x31 (Some (W x15 xbe x4d x7b xc4 x5e x89 x1a)) O
(C x32 (Some (W xfc xb8 x4d x7b xc4 x5b x89 x1a)) O
O)))
O)
O)
O)))
O)
O)
(C x35 (Some (W xb9 x47 x33 x91 x2d x66 x31 x67)) (C x5f None (C x30 None (C x30 (Some (W xc2 xbe x4f x57 xe6 x5a x5b x25)) (C x5f None (C x30 None (C x30 (Some (W xff x5e x99 xe5 x6c xa9 x49 x46)) O
(C x31 (Some (W x4c x5d x99 xe5 x6c xa8 x49 x46)) O
(C x32 (Some (W x65 x62 x99 xe5 x6c xab x49 x46)) O
O)))
O)
O)
(C x31 (Some (W x75 xc0 x4f x57 xe6 x5b x5b x25)) (C x5f None (C x30 None (C x30 (Some (W x6e x1f x03 x81 x74 x73 xaf x9c)) O
(C x31 (Some (W x21 x21 x03 x81 x74 x74 xaf x9c)) O
(C x32 (Some (W x08 x1c x03 x81 x74 x71 xaf x9c)) O
O)))
O)
O)
(C x32 (Some (W x5c xbb x4f x57 xe6 x58 x5b x25)) (C x5f None (C x30 None (C x30 (Some (W x61 xfc xb1 x39 x5b xb5 x7a x43)) O
(C x31 (Some (W xae xfa xb1 x39 x5b xb4 x7a x43)) O
(C x32 (Some (W xfb xf8 xb1 x39 x5b xb3 x7a x43)) O
O)))
O)
O)
O)))
O)
O)
(C x36 (Some (W xa0 x42 x33 x91 x2d x63 x31 x67)) (C x5f None (C x30 None (C x30 (Some (W xd5 x3e x5a x4a xce xdc xf1 xf6)) (C x5f None (C x30 None (C x30 (Some (W x0e x6c x50 xca xf9 x09 x75 x58)) O
(C x31 (Some (W xc1 x6d x50 xca xf9 x0a x75 x58)) O
(C x32 (Some (W xa8 x68 x50 xca xf9 x07 x75 x58)) O
O)))
O)
O)
(C x31 (Some (W x22 x3d x5a x4a xce xdb xf1 xf6)) (C x5f None (C x30 None (C x30 (Some (W x1f x01 xe6 xa2 xf4 xbf xcc x56)) O
(C x31 (Some (W x6c xff xe5 xa2 xf4 xbe xcc x56)) O
(C x32 (Some (W x85 x04 xe6 xa2 xf4 xc1 xcc x56)) O
O)))
O)
O)
(C x32 (Some (W x6f x3b x5a x4a xce xda xf1 xf6)) (C x5f None (C x30 None (C x30 (Some (W x70 x40 x7d x59 xe9 xb5 x4a x81)) O
(C x31 (Some (W x23 x42 x7d x59 xe9 xb6 x4a x81)) O
(C x32 (Some (W xd6 x43 x7d x59 xe9 xb7 x4a x81)) O
O)))
O)
O)
O)))
O)
O)
(C x37 (Some (W x53 x44 x33 x91 x2d x64 x31 x67)) (C x5f None (C x30 None (C x30 (Some (W xe4 xd7 x67 x71 xd3 x26 x2d xf8)) (C x5f None (C x30 None (C x30 (Some (W x29 x8d xb0 x5e xd4 xd6 xfc x10)) O
(C x31 (Some (W x76 x8b xb0 x5e xd4 xd5 xfc x10)) O
(C x32 (Some (W xc3 x89 xb0 x5e xd4 xd4 xfc x10)) O
O)))
O)
O)
(C x31 (Some (W x97 xd9 x67 x71 xd3 x27 x2d xf8)) (C x5f None (C x30 None (C x30 (Some (W x98 xc9 x18 x6e xde xa0 x1f xbc)) O
(C x31 (Some (W x4b xcb x18 x6e xde xa1 x1f xbc)) O
(C x32 (Some (W xfe xcc x18 x6e xde xa2 x1f xbc)) O
O)))
O)
O)
(C x32 (Some (W x4a xdb x67 x71 xd3 x28 x2d xf8)) (C x5f None (C x30 None (C x30 (Some (W x47 xdf x82 xcf xe4 xaa x26 xe8)) O
(C x31 (Some (W x94 xdd x82 xcf xe4 xa9 x26 xe8)) O
(C x32 (Some (W xad xe2 x82 xcf xe4 xac x26 xe8)) O
O)))
O)
O)
O)))
O)
O)
(C x38 (Some (W x6a x5a x33 x91 x2d x71 x31 x67)) (C x5f None (C x30 None (C x30 (Some (W xa7 xc0 x2b x2b x40 x69 xac xb4)) (C x5f None (C x30 None (C x30 (Some (W xa8 x14 x4a x3f x31 x94 x64 xe2)) O
(C x31 (Some (W x5b x16 x4a x3f x31 x95 x64 xe2)) O
(C x32 (Some (W x0e x18 x4a x3f x31 x96 x64 xe2)) O
O)))
O)
O)
(C x31 (Some (W xf4 xbe x2b x2b x40 x68 xac xb4)) (C x5f None (C x30 None (C x30 (Some (W xf9 x53 xe1 xf5 x25 x8a xe2 x0c)) O
(C x31 (Some (W x46 x52 xe1 xf5 x25 x89 xe2 x0c)) O
(C x32 (Some (W x93 x50 xe1 xf5 x25 x88 xe2 x0c)) O
O)))
O)
O)
(C x32 (Some (W x0d xc4 x2b x2b x40 x6b xac xb4)) (C x5f None (C x30 None (C x30 (Some (W x86 xcc x31 xb1 x41 xc8 xd4 xba)) O
(C x31 (Some (W x39 xce x31 xb1 x41 xc9 xd4 xba)) O
(C x32 (Some (W x20 xc9 x31 xb1 x41 xc6 xd4 xba)) O
O)))
O)
O)
O)))
O)
O)
(C x39 (Some (W x1d x5c x33 x91 x2d x72 x31 x67)) (C x5f None (C x30 None (C x30 (Some (W x56 xce x37 x3a x4a x93 x62 x5f)) (C x5f None (C x30 None (C x30 (Some (W x43 x77 x5d x50 xeb x12 x72 xb2)) O
(C x31 (Some (W x90 x75 x5d x50 xeb x11 x72 xb2)) O
(C x32 (Some (W xa9 x7a x5d x50 xeb x14 x72 xb2)) O
O)))
O)
O)
(C x31 (Some (W x09 xd0 x37 x3a x4a x94 x62 x5f)) (C x5f None (C x30 None (C x30 (Some (W x12 x66 x69 x99 xf6 x1c x87 x87)) O
(C x31 (Some (W xc5 x67 x69 x99 xf6 x1d x87 x87)) O
(C x32 (Some (W xac x62 x69 x99 xf6 x1a x87 x87)) O
O)))
O)
O)
(C x32 (Some (W xf0 xca x37 x3a x4a x91 x62 x5f)) (C x5f None (C x30 None (C x30 (Some (W xe5 xe5 x74 xde xda x5e x01 xda)) O
(C x31 (Some (W x32 xe4 x74 xde xda x5d x01 xda)) O
(C x32 (Some (W x7f xe2 x74 xde xda x5c x01 xda)) O
O)))
O)
O)
O)))
O)
O)
O))))))))))
(C x34 None (C x30 (Some (W xed xbf x3b x91 x2d x7b x3b x67)) (C x5f None (C x30 None (C x30 (Some (W xa6 xbe x2e x0c x72 xaf x4e xa6)) (C x5f None (C x30 None (C x30 (Some (W x13 xec x91 xbb x6e x25 x15 x91)) O
(C x31 (Some (W x60 xea x91 xbb x6e x24 x15 x91)) O
(C x32 (Some (W x79 xef x91 xbb x6e x27 x15 x91)) O
O)))
O)
O)
(C x31 (Some (W x59 xc0 x2e x0c x72 xb0 x4e xa6)) (C x5f None (C x30 None (C x30 (Some (W x22 x85 x9f xe2 x73 x6f x50 x92)) O
(C x31 (Some (W xd5 x86 x9f xe2 x73 x70 x50 x92)) O
(C x32 (Some (W xbc x81 x9f xe2 x73 x6d x50 x92)) O
O)))
O)
O)
(C x32 (Some (W x40 xbb x2e x0c x72 xad x4e xa6)) (C x5f None (C x30 None (C x30 (Some (W xb5 xde xaa xd5 x5b x71 xe7 x63)) O
(C x31 (Some (W x02 xdd xaa xd5 x5b x70 xe7 x63)) O
(C x32 (Some (W x4f xdb xaa xd5 x5b x6f xe7 x63)) O
O)))
O)
O)
O)))
O)
O)
(C x31 (Some (W x3a xbe x3b x91 x2d x7a x3b x67)) (C x5f None (C x30 None (C x30 (Some (W x37 xb1 x21 xab x6b xc5 xb4 x7a)) (C x5f None (C x30 None (C x30 (Some (W xf8 x33 xd4 x71 xe3 x8c xb6 xb2)) O
(C x31 (Some (W xab x35 xd4 x71 xe3 x8d xb6 xb2)) O
(C x32 (Some (W x5e x37 xd4 x71 xe3 x8e xb6 xb2)) O
O)))
O)
O)
(C x31 (Some (W x84 xaf x21 xab x6b xc4 xb4 x7a)) (C x5f None (C x30 None (C x30 (Some (W x89 x73 x6a xd6 xdb xc2 x50 x5c)) O
(C x31 (Some (W xd6 x71 x6a xd6 xdb xc1 x50 x5c)) O
(C x32 (Some (W x23 x70 x6a xd6 xdb xc0 x50 x5c)) O
O)))
O)
O)
(C x32 (Some (W x9d xb4 x21 xab x6b xc7 xb4 x7a)) (C x5f None (C x30 None (C x30 (Some (W xd6 xeb xbb xe3 xf3 xc0 x26 x8b)) O
(C x31 (Some (W x89 xed xbb xe3 xf3 xc1 x26 x8b)) O
(C x32 (Some (W x70 xe8 xbb xe3 xf3 xbe x26 x8b)) O
O)))
O)
O)
O)))
O)
O)
(C x32 (Some (W x87 xbc x3b x91 x2d x79 x3b x67)) (C x5f None (C x30 None (C x30 (Some (W xc8 xf0 xb7 x0f x64 xfb x4e x24)) (C x5f None (C x30 None (C x30 (Some (W x9d xd4 x02 x75 x2b x3f x36 xf2)) O
(C x31 (Some (W xea xd2 x02 x75 x2b x3e x36 xf2)) O
(C x32 (Some (W x37 xd1 x02 x75 x2b x3d x36 xf2)) O
O)))
O)
O)
(C x31 (Some (W x7b xf2 xb7 x0f x64 xfc x4e x24)) (C x5f None (C x30 None (C x30 (Some (W xac x5e x6c x10 x33 xe9 x9b x48)) O
(C x31 (Some (W x5f x60 x6c x10 x33 xea x9b x48)) O
(C x32 (Some (W x12 x62 x6c x10 x33 xeb x9b x48)) O
O)))
O)
O)
(C x32 (Some (W x2e xf4 xb7 x0f x64 xfd x4e x24)) (C x5f None (C x30 None (C x30 (Some (W xfb xe1 xe9 x5a x3e xf3 x63 x1f)) O
(C x31 (Some (W x48 xe0 xe9 x5a x3e xf2 x63 x1f)) O
(C x32 (Some (W x61 xe5 xe9 x5a x3e xf5 x63 x1f)) O
O)))
O)
O)
O)))
O)
O)
(C x33 (Some (W xd4 xba x3b x91 x2d x78 x3b x67)) (C x5f None (C x30 None (C x30 (Some (W x99 x9b xdd xc4 x58 xf1 x19 x4d)) (C x5f None (C x30 None (C x30 (Some (W x62 xce xb4 x07 x06 x56 xe2 xe6)) O
(C x31 (Some (W x15 xd0 xb4 x07 x06 x57 xe2 xe6)) O
(C x32 (Some (W xfc xca xb4 x07 x06 x54 xe2 xe6)) O
O)))
O)
O)
(C x31 (Some (W xe6 x99 xdd xc4 x58 xf0 x19 x4d)) (C x5f None (C x30 None (C x30 (Some (W x53 x8a xa8 xf8 xfb x0b x2c x3c)) O
(C x31 (Some (W xa0 x88 xa8 xf8 xfb x0a x2c x3c)) O
(C x32 (Some (W xb9 x8d xa8 xf8 xfb x0d x2c x3c)) O
O)))
O)
O)
(C x32 (Some (W x33 x98 xdd xc4 x58 xef x19 x4d)) (C x5f None (C x30 None (C x30 (Some (W x04 xab x3e x97 xf5 x21 x25 x10)) O
(C x31 (Some (W xb7 xac x3e x97 xf5 x22 x25 x10)) O
(C x32 (Some (W x6a xae x3e x97 xf5 x23 x25 x10)) O
O)))
O)
O)
O)))
O)
O)
(C x34 (Some (W x21 xb9 x3b x91 x2d x77 x3b x67)) (C x5f None (C x30 None (C x30 (Some (W xea x38 xd0 x9d x53 xc7 xde x4b)) (C x5f None (C x30 None (C x30 (Some (W x27 x60 x37 x02 x35 x0a xde x05)) O
(C x31 (Some (W x74 x5e x37 x02 x35 x09 xde x05)) O
(C x32 (Some (W x8d x63 x37 x02 x35 x0c xde x05)) O
O)))
O)
O)
(C x31 (Some (W x9d x3a xd0 x9d x53 xc8 xde x4b)) (C x5f None (C x30 None (C x30 (Some (W xd6 x6d x43 x11 x3f x34 x94 xb0)) O
(C x31 (Some (W x89 x6f x43 x11 x3f x35 x94 xb0)) O
(C x32 (Some (W x70 x6a x43 x11 x3f x32 x94 xb0)) O
O)))
O)
O)
(C x32 (Some (W x84 x35 xd0 x9d x53 xc5 xde x4b)) (C x5f None (C x30 None (C x30 (Some (W x89 xf5 xf1 x03 x27 x36 xbe x81)) O
(C x31 (Some (W xd6 xf3 xf1 x03 x27 x35 xbe x81)) O
(C x32 (Some (W x23 xf2 xf1 x03 x27 x34 xbe x81)) O
O)))
O)
O)
O)))
O)
O)
(C x35 (Some (W x6e xb7 x3b x91 x2d x76 x3b x67)) (C x5f None (C x30 None (C x30 (Some (W x3b x78 x67 x54 x48 xbd x5c x76)) (C x5f None (C x30 None (C x30 (Some (W x6c x8b x9e x3c x4e xb6 xfb x51)) O
(C x31 (Some (W x1f x8d x9e x3c x4e xb7 xfb x51)) O
(C x32 (Some (W xd2 x8e x9e x3c x4e xb8 xfb x51)) O
O)))
O)
O)
(C x31 (Some (W x88 x76 x67 x54 x48 xbc x5c x76)) (C x5f None (C x30 None (C x30 (Some (W x5d x01 x35 xa1 x46 x0c x96 xfb)) O
(C x31 (Some (W xaa xff x34 xa1 x46 x0b x96 xfb)) O
(C x32 (Some (W xf7 xfd x34 xa1 x46 x0a x96 xfb)) O
O)))
O)
O)
(C x32 (Some (W xa1 x7b x67 x54 x48 xbf x5c x76)) (C x5f None (C x30 None (C x30 (Some (W x6a x24 x86 xe8 x5f xca xca x54)) O
(C x31 (Some (W x1d x26 x86 xe8 x5f xcb xca x54)) O
(C x32 (Some (W x04 x21 x86 xe8 x5f xc8 xca x54)) O
O)))
O)
O)
O)))
O)
O)
(C x36 (Some (W xbb xb5 x3b x91 x2d x75 x3b x67)) (C x5f None (C x30 None (C x30 (Some (W xec x9f xe8 xf1 x41 xb3 x0f x49)) (C x5f None (C x30 None (C x30 (Some (W x71 xc2 x2c x4b x78 x87 x50 xf3)) O
(C x31 (Some (W xbe xc0 x2c x4b x78 x86 x50 xf3)) O
(C x32 (Some (W x0b xbf x2c x4b x78 x85 x50 xf3)) O
O)))
O)
O)
(C x31 (Some (W x9f xa1 xe8 xf1 x41 xb4 x0f x49)) (C x5f None (C x30 None (C x30 (Some (W x20 x3e xab x5b x82 x31 xba x9f)) O
(C x31 (Some (W xd3 x3f xab x5b x82 x32 xba x9f)) O
(C x32 (Some (W x86 x41 xab x5b x82 x33 xba x9f)) O
O)))
O)
O)
(C x32 (Some (W x52 xa3 xe8 xf1 x41 xb5 x0f x49)) (C x5f None (C x30 None (C x30 (Some (W xcf x53 x15 xbd x88 x3b xc1 xcb)) O
(C x31 (Some (W x1c x52 x15 xbd x88 x3a xc1 xcb)) O
(C x32 (Some (W x35 x57 x15 xbd x88 x3d xc1 xcb)) O
O)))
O)
O)
O)))
O)
O)
(C x37 (Some (W x08 xb4 x3b x91 x2d x74 x3b x67)) (C x5f None (C x30 None (C x30 (Some (W xdd x15 x7f x56 x3a x09 xaa xf2)) (C x5f None (C x30 None (C x30 (Some (W x16 x0c x5a x4e xcc x1a xab x5b)) O
(C x31 (Some (W xc9 x0d x5a x4e xcc x1b xab x5b)) O
(C x32 (Some (W xb0 x08 x5a x4e xcc x18 xab x5b)) O
O)))
O)
O)
(C x31 (Some (W x2a x14 x7f x56 x3a x08 xaa xf2)) (C x5f None (C x30 None (C x30 (Some (W x67 xa9 x4c x27 xc7 xf0 x6f x5a)) O
(C x31 (Some (W xb4 xa7 x4c x27 xc7 xef x6f x5a)) O
(C x32 (Some (W xcd xac x4c x27 xc7 xf2 x6f x5a)) O
O)))
O)
O)
(C x32 (Some (W x77 x12 x7f x56 x3a x07 xaa xf2)) (C x5f None (C x30 None (C x30 (Some (W x38 x54 x72 xdc xbb xe6 x3a x83)) O
(C x31 (Some (W xeb x55 x72 xdc xbb xe7 x3a x83)) O
(C x32 (Some (W x9e x57 x72 xdc xbb xe8 x3a x83)) O
O)))
O)
O)
O)))
O)
O)
(C x38 (Some (W x55 xb2 x3b x91 x2d x73 x3b x67)) (C x5f None (C x30 None (C x30 (Some (W x8e x92 x01 x0c x2f xff xe1 x1b)) (C x5f None (C x30 None (C x30 (Some (W x9b x8e x21 x53 x0d x39 x17 x10)) O
(C x31 (Some (W xe8 x8c x21 x53 x0d x38 x17 x10)) O
(C x32 (Some (W x01 x92 x21 x53 x0d x3b x17 x10)) O
O)))
O)
O)
(C x31 (Some (W x41 x94 x01 x0c x2f x00 xe2 x1b)) (C x5f None (C x30 None (C x30 (Some (W xca xca x8a xb4 x13 xc3 x1d x3c)) O
(C x31 (Some (W x7d xcc x8a xb4 x13 xc4 x1d x3c)) O
(C x32 (Some (W x64 xc7 x8a xb4 x13 xc1 x1d x3c)) O
O)))
O)
O)
(C x32 (Some (W x28 x8f x01 x0c x2f xfd xe1 x1b)) (C x5f None (C x30 None (C x30 (Some (W x3d xfd x38 xe1 xfc x84 xa6 x37)) O
(C x31 (Some (W x8a xfb x38 xe1 xfc x83 xa6 x37)) O
(C x32 (Some (W xd7 xf9 x38 xe1 xfc x82 xa6 x37)) O
O)))
O)
O)
O)))
O)
O)
(C x39 (Some (W xa2 xb0 x3b x91 x2d x72 x3b x67)) (C x5f None (C x30 None (C x30 (Some (W x9f x27 x97 xe4 x29 xb5 x39 x1a)) (C x5f None (C x30 None (C x30 (Some (W x20 xc0 x32 x89 xcd xa4 x27 xc5)) O
(C x31 (Some (W xd3 xc1 x32 x89 xcd xa5 x27 xc5)) O
(C x32 (Some (W x86 xc3 x32 x89 xcd xa6 x27 xc5)) O
O)))
O)
O)
(C x31 (Some (W xec x25 x97 xe4 x29 xb4 x39 x1a)) (C x5f None (C x30 None (C x30 (Some (W x71 x44 xb4 x78 xc3 xfa xbd x18)) O
(C x31 (Some (W xbe x42 xb4 x78 xc3 xf9 xbd x18)) O
(C x32 (Some (W x0b x41 xb4 x78 xc3 xf8 xbd x18)) O
O)))
O)
O)
(C x32 (Some (W x05 x2b x97 xe4 x29 xb7 x39 x1a)) (C x5f None (C x30 None (C x30 (Some (W xfe xbc x04 x34 xdf x38 xb0 xc6)) O
(C x31 (Some (W xb1 xbe x04 x34 xdf x39 xb0 xc6)) O
(C x32 (Some (W x98 xb9 x04 x34 xdf x36 xb0 xc6)) O
O)))
O)
O)
O)))
O)
O)
O))))))))))
(C x35 None (C x30 (Some (W x64 xa6 x38 x91 x2d xf5 x37 x67)) (C x5f None (C x30 None (C x30 (Some (W xa9 x7c x8d x21 x3d x91 x7b x37)) (C x5f None (C x30 None (C x30 (Some (W x72 xd2 x02 x66 xbf x49 x67 xd6)) O
(C x31 (Some (W x25 xd4 x02 x66 xbf x4a x67 xd6)) O
(C x32 (Some (W x0c xcf x02 x66 xbf x47 x67 xd6)) O
O)))
O)
O)
(C x31 (Some (W xf6 x7a x8d x21 x3d x90 x7b x37)) (C x5f None (C x30 None (C x30 (Some (W x23 x4f x85 x1b xb4 x3f x9f xff)) O
(C x31 (Some (W x70 x4d x85 x1b xb4 x3e x9f xff)) O
(C x32 (Some (W x89 x52 x85 x1b xb4 x41 x9f xff)) O
O)))
O)
O)
(C x32 (Some (W x43 x79 x8d x21 x3d x8f x7b x37)) (C x5f None (C x30 None (C x30 (Some (W x14 xc5 x1b x80 xac x95 x39 xa9)) O
(C x31 (Some (W xc7 xc6 x1b x80 xac x96 x39 xa9)) O
(C x32 (Some (W x7a xc8 x1b x80 xac x97 x39 xa9)) O
O)))
O)
O)
O)))
O)
O)
(C x31 (Some (W x17 xa8 x38 x91 x2d xf6 x37 x67)) (C x5f None (C x30 None (C x30 (Some (W x18 xb9 xf5 x30 x47 x5b x9e xe2)) (C x5f None (C x30 None (C x30 (Some (W xad xe6 xd9 xcc xc0 x4c x06 x90)) O
(C x31 (Some (W xfa xe4 xd9 xcc xc0 x4b x06 x90)) O
(C x32 (Some (W x47 xe3 xd9 xcc xc0 x4a x06 x90)) O
O)))
O)
O)
(C x31 (Some (W xcb xba xf5 x30 x47 x5c x9e xe2)) (C x5f None (C x30 None (C x30 (Some (W xfc xc5 x43 x2e xc7 x36 x0d xbc)) O
(C x31 (Some (W xaf xc7 x43 x2e xc7 x37 x0d xbc)) O
(C x32 (Some (W x62 xc9 x43 x2e xc7 x38 x0d xbc)) O
O)))
O)
O)
(C x32 (Some (W x7e xbc xf5 x30 x47 x5d x9e xe2)) (C x5f None (C x30 None (C x30 (Some (W x0b x49 xc2 xca xce x00 xb9 x13)) O
(C x31 (Some (W x58 x47 xc2 xca xce xff xb8 x13)) O
(C x32 (Some (W x71 x4c xc2 xca xce x02 xb9 x13)) O
O)))
O)
O)
O)))
O)
O)
(C x32 (Some (W xca xa9 x38 x91 x2d xf7 x37 x67)) (C x5f None (C x30 None (C x30 (Some (W xc7 xce x5f x92 x4d x65 xa5 x0e)) (C x5f None (C x30 None (C x30 (Some (W x08 x4c xac xa0 xb9 x4d x84 xad)) O
(C x31 (Some (W xbb x4d xac xa0 xb9 x4e x84 xad)) O
(C x32 (Some (W x6e x4f xac xa0 xb9 x4f x84 xad)) O
O)))
O)
O)
(C x31 (Some (W x14 xcd x5f x92 x4d x64 xa5 x0e)) (C x5f None (C x30 None (C x30 (Some (W xd9 xa1 xd0 x3d xb3 x43 xca x7f)) O
(C x31 (Some (W x26 xa0 xd0 x3d xb3 x42 xca x7f)) O
(C x32 (Some (W x73 x9e xd0 x3d xb3 x41 xca x7f)) O
O)))
O)
O)
(C x32 (Some (W x2d xd2 x5f x92 x4d x67 xa5 x0e)) (C x5f None (C x30 None (C x30 (Some (W xe6 xc4 x21 x85 xcc x01 xff xd8)) O
(C x31 (Some (W x99 xc6 x21 x85 xcc x02 xff xd8)) O
(C x32 (Some (W x80 xc1 x21 x85 xcc xff xfe xd8)) O
O)))
O)
O)
O)))
O)
O)
(C x33 (Some (W x7d xab x38 x91 x2d xf8 x37 x67)) (C x5f None (C x30 None (C x30 (Some (W xf6 xf4 xde x2e x55 x8f x51 x66)) (C x5f None (C x30 None (C x30 (Some (W x23 xcd xfd xed x68 xcc x31 xda)) O
(C x31 (Some (W x70 xcb xfd xed x68 xcb x31 xda)) O
(C x32 (Some (W x89 xd0 xfd xed x68 xce x31 xda)) O
O)))
O)
O)
(C x31 (Some (W xa9 xf6 xde x2e x55 x90 x51 x66)) (C x5f None (C x30 None (C x30 (Some (W x72 x50 x7b x38 x74 xd6 xf9 xb0)) O
(C x31 (Some (W x25 x52 x7b x38 x74 xd7 xf9 xb0)) O
(C x32 (Some (W x0c x4d x7b x38 x74 xd4 xf9 xb0)) O
O)))
O)
O)
(C x32 (Some (W x90 xf1 xde x2e x55 x8d x51 x66)) (C x5f None (C x30 None (C x30 (Some (W xc5 x6a x15 xf0 x5a x18 x7f x56)) O
(C x31 (Some (W x12 x69 x15 xf0 x5a x17 x7f x56)) O
(C x32 (Some (W x5f x67 x15 xf0 x5a x16 x7f x56)) O
O)))
O)
O)
O)))
O)
O)
(C x34 (Some (W x98 x9f x38 x91 x2d xf1 x37 x67)) (C x5f None (C x30 None (C x30 (Some (W x2d xde xbc x77 x1d x69 xf9 xb0)) (C x5f None (C x30 None (C x30 (Some (W xe6 xc8 x30 xe0 x62 xe8 xd9 x23)) O
(C x31 (Some (W x99 xca x30 xe0 x62 xe9 xd9 x23)) O
(C x32 (Some (W x80 xc5 x30 xe0 x62 xe6 xd9 x23)) O
O)))
O)
O)
(C x31 (Some (W x7a xdc xbc x77 x1d x68 xf9 xb0)) (C x5f None (C x30 None (C x30 (Some (W x77 x10 x25 x97 x57 xfe xc4 x4e)) O
(C x31 (Some (W xc4 x0e x25 x97 x57 xfd xc4 x4e)) O
(C x32 (Some (W xdd x13 x25 x97 x57 x00 xc5 x4e)) O
O)))
O)
O)
(C x32 (Some (W xc7 xda xbc x77 x1d x67 xf9 xb0)) (C x5f None (C x30 None (C x30 (Some (W x08 x50 xbb xfb x4f x34 x5f xf8)) O
(C x31 (Some (W xbb x51 xbb xfb x4f x35 x5f xf8)) O
(C x32 (Some (W x6e x53 xbb xfb x4f x36 x5f xf8)) O
O)))
O)
O)
O)))
O)
O)
(C x35 (Some (W x4b xa1 x38 x91 x2d xf2 x37 x67)) (C x5f None (C x30 None (C x30 (Some (W x7c xbd x26 xd9 x23 x53 x00 xdd)) (C x5f None (C x30 None (C x30 (Some (W x41 xca x93 xb2 x4f x88 xca x16)) O
(C x31 (Some (W x8e xc8 x93 xb2 x4f x87 xca x16)) O
(C x32 (Some (W xdb xc6 x93 xb2 x4f x86 xca x16)) O
O)))
O)
O)
(C x31 (Some (W x2f xbf x26 xd9 x23 x54 x00 xdd)) (C x5f None (C x30 None (C x30 (Some (W x30 x17 x11 xfd x5a x72 x92 xed)) O
(C x31 (Some (W xe3 x18 x11 xfd x5a x73 x92 xed)) O
(C x32 (Some (W x96 x1a x11 xfd x5a x74 x92 xed)) O
O)))
O)
O)
(C x32 (Some (W xe2 xc0 x26 xd9 x23 x55 x00 xdd)) (C x5f None (C x30 None (C x30 (Some (W xdf x2c x7b x5e x61 x7c x99 x19)) O
(C x31 (Some (W x2c x2b x7b x5e x61 x7b x99 x19)) O
(C x32 (Some (W x45 x30 x7b x5e x61 x7e x99 x19)) O
O)))
O)
O)
O)))
O)
O)
(C x36 (Some (W xfe xa2 x38 x91 x2d xf3 x37 x67)) (C x5f None (C x30 None (C x30 (Some (W x8b x40 xa5 x75 x2b x1d xac x34)) (C x5f None (C x30 None (C x30 (Some (W xbc xf2 x75 x5a xe2 x03 x6d xc5)) O
(C x31 (Some (W x6f xf4 x75 x5a xe2 x04 x6d xc5)) O
(C x32 (Some (W x22 xf6 x75 x5a xe2 x05 x6d xc5)) O
O)))
O)
O)
(C x31 (Some (W xd8 x3e xa5 x75 x2b x1c xac x34)) (C x5f None (C x30 None (C x30 (Some (W x6d x68 x0d x11 xd7 x19 xeb xef)) O
(C x31 (Some (W xba x66 x0d x11 xd7 x18 xeb xef)) O
(C x32 (Some (W x07 x65 x0d x11 xd7 x17 xeb xef)) O
O)))
O)
O)
(C x32 (Some (W xf1 x43 xa5 x75 x2b x1f xac x34)) (C x5f None (C x30 None (C x30 (Some (W x7a x8b x5e x58 xf0 xd7 x1f x49)) O
(C x31 (Some (W x2d x8d x5e x58 xf0 xd8 x1f x49)) O
(C x32 (Some (W x14 x88 x5e x58 xf0 xd5 x1f x49)) O
O)))
O)
O)
O)))
O)
O)
(C x37 (Some (W xb1 xa4 x38 x91 x2d xf4 x37 x67)) (C x5f None (C x30 None (C x30 (Some (W x3a x01 x0e xbf x36 x27 x2e x0a)) (C x5f None (C x30 None (C x30 (Some (W x37 x72 x0e x5a xca x17 xae xa3)) O
(C x31 (Some (W x84 x70 x0e x5a xca x16 xae xa3)) O
(C x32 (Some (W x9d x75 x0e x5a xca x19 xae xa3)) O
O)))
O)
O)
(C x31 (Some (W xed x02 x0e xbf x36 x28 x2e x0a)) (C x5f None (C x30 None (C x30 (Some (W xa6 x7f x1b xbb xd0 x01 x48 xcf)) O
(C x31 (Some (W x59 x81 x1b xbb xd0 x02 x48 xcf)) O
(C x32 (Some (W x40 x7c x1b xbb xd0 xff x47 xcf)) O
O)))
O)
O)
(C x32 (Some (W xd4 xfd x0d xbf x36 x25 x2e x0a)) (C x5f None (C x30 None (C x30 (Some (W x99 x5c xca x73 xb7 x43 x13 x76)) O
(C x31 (Some (W xe6 x5a xca x73 xb7 x42 x13 x76)) O
(C x32 (Some (W x33 x59 xca x73 xb7 x41 x13 x76)) O
O)))
O)
O)
O)))
O)
O)
(C x38 (Some (W xcc x98 x38 x91 x2d xed x37 x67)) (C x5f None (C x30 None (C x30 (Some (W x11 x77 x5f x21 xfa x60 x0e xad)) (C x5f None (C x30 None (C x30 (Some (W x5a xfe x10 xe3 x32 x59 x80 x58)) O
(C x31 (Some (W x0d x00 x11 xe3 x32 x5a x80 x58)) O
(C x32 (Some (W xf4 xfa x10 xe3 x32 x57 x80 x58)) O
O)))
O)
O)
(C x31 (Some (W x5e x75 x5f x21 xfa x5f x0e xad)) (C x5f None (C x30 None (C x30 (Some (W x2b xa9 x36 x98 x27 x4f x4b x81)) O
(C x31 (Some (W x78 xa7 x36 x98 x27 x4e x4b x81)) O
(C x32 (Some (W x91 xac x36 x98 x27 x51 x4b x81)) O
O)))
O)
O)
(C x32 (Some (W xab x73 x5f x21 xfa x5e x0e xad)) (C x5f None (C x30 None (C x30 (Some (W x1c x10 x29 x71 x22 x05 x10 x80)) O
(C x31 (Some (W xcf x11 x29 x71 x22 x06 x10 x80)) O
(C x32 (Some (W x82 x13 x29 x71 x22 x07 x10 x80)) O
O)))
O)
O)
O)))
O)
O)
(C x39 (Some (W x7f x9a x38 x91 x2d xee x37 x67)) (C x5f None (C x30 None (C x30 (Some (W x40 x2f x6c xbc x01 x0b x07 x03)) (C x5f None (C x30 None (C x30 (Some (W xb5 x5a xcf x33 x77 x7e x07 x06)) O
(C x31 (Some (W x02 x59 xcf x33 x77 x7d x07 x06)) O
(C x32 (Some (W x4f x57 xcf x33 x77 x7c x07 x06)) O
O)))
O)
O)
(C x31 (Some (W xf3 x30 x6c xbc x01 x0c x07 x03)) (C x5f None (C x30 None (C x30 (Some (W xc4 xdd x4d xd0 x7e x48 xb3 x5d)) O
(C x31 (Some (W x77 xdf x4d xd0 x7e x49 xb3 x5d)) O
(C x32 (Some (W x2a xe1 x4d xd0 x7e x4a xb3 x5d)) O
O)))
O)
O)
(C x32 (Some (W xa6 x32 x6c xbc x01 x0d x07 x03)) (C x5f None (C x30 None (C x30 (Some (W x13 x68 xb6 x19 x8a x32 x35 x33)) O
(C x31 (Some (W x60 x66 xb6 x19 x8a x31 x35 x33)) O
(C x32 (Some (W x79 x6b xb6 x19 x8a x34 x35 x33)) O
O)))
O)
O)
O)))
O)
O)
O))))))))))
(C x36 None (C x30 (Some (W x9f xbc x41 x91 x2d x67 x42 x67)) (C x5f None (C x30 None (C x30 (Some (W x20 x47 xfa x91 xd3 xaa x30 xdd)) (C x5f None (C x30 None (C x30 (Some (W x55 x40 x41 x55 x1d xbd x04 xe8)) O
(C x31 (Some (W xa2 x3e x41 x55 x1d xbc x04 xe8)) O
(C x32 (Some (W xef x3c x41 x55 x1d xbb x04 xe8)) O
O)))
O)
O)
(C x31 (Some (W xd3 x48 xfa x91 xd3 xab x30 xdd)) (C x5f None (C x30 None (C x30 (Some (W x64 xd9 x4e x7c x22 x07 x40 xe9)) O
(C x31 (Some (W x17 xdb x4e x7c x22 x08 x40 xe9)) O
(C x32 (Some (W xca xdc x4e x7c x22 x09 x40 xe9)) O
O)))
O)
O)
(C x32 (Some (W x86 x4a xfa x91 xd3 xac x30 xdd)) (C x5f None (C x30 None (C x30 (Some (W xb3 x63 xb7 xc5 x2d xf1 xc1 xbe)) O
(C x31 (Some (W x00 x62 xb7 xc5 x2d xf0 xc1 xbe)) O
(C x32 (Some (W x19 x67 xb7 xc5 x2d xf3 xc1 xbe)) O
O)))
O)
O)
O)))
O)
O)
(C x31 (Some (W xec xba x41 x91 x2d x66 x42 x67)) (C x5f None (C x30 None (C x30 (Some (W x71 xcb x7b x81 xc9 x00 xc7 x30)) (C x5f None (C x30 None (C x30 (Some (W xfa x0d x9c x5f xf3 xe4 x55 xef)) O
(C x31 (Some (W xad x0f x9c x5f xf3 xe5 x55 xef)) O
(C x32 (Some (W x94 x0a x9c x5f xf3 xe2 x55 xef)) O
O)))
O)
O)
(C x31 (Some (W xbe xc9 x7b x81 xc9 xff xc6 x30)) (C x5f None (C x30 None (C x30 (Some (W x4b xf8 x31 xfe xec xda x4e xc3)) O
(C x31 (Some (W x98 xf6 x31 xfe xec xd9 x4e xc3)) O
(C x32 (Some (W xb1 xfb x31 xfe xec xdc x4e xc3)) O
O)))
O)
O)
(C x32 (Some (W x0b xc8 x7b x81 xc9 xfe xc6 x30)) (C x5f None (C x30 None (C x30 (Some (W x3c x75 xb3 x61 xe5 x10 xa3 x6b)) O
(C x31 (Some (W xef x76 xb3 x61 xe5 x11 xa3 x6b)) O
(C x32 (Some (W xa2 x78 xb3 x61 xe5 x12 xa3 x6b)) O
O)))
O)
O)
O)))
O)
O)
(C x32 (Some (W x05 xc0 x41 x91 x2d x69 x42 x67)) (C x5f None (C x30 None (C x30 (Some (W xfe x43 xcc x3c xe5 x3e xb9 xde)) (C x5f None (C x30 None (C x30 (Some (W x8b xcb xff xd1 xd1 x0d xef xb9)) O
(C x31 (Some (W xd8 xc9 xff xd1 xd1 x0c xef xb9)) O
(C x32 (Some (W xf1 xce xff xd1 xd1 x0f xef xb9)) O
O)))
O)
O)
(C x31 (Some (W xb1 x45 xcc x3c xe5 x3f xb9 xde)) (C x5f None (C x30 None (C x30 (Some (W x3a x8c x68 x1b xdd x17 x71 x8f)) O
(C x31 (Some (W xed x8d x68 x1b xdd x18 x71 x8f)) O
(C x32 (Some (W xd4 x88 x68 x1b xdd x15 x71 x8f)) O
O)))
O)
O)
(C x32 (Some (W x98 x40 xcc x3c xe5 x3c xb9 xde)) (C x5f None (C x30 None (C x30 (Some (W x2d x69 x17 xd4 xc3 x59 x3c x36)) O
(C x31 (Some (W x7a x67 x17 xd4 xc3 x58 x3c x36)) O
(C x32 (Some (W xc7 x65 x17 xd4 xc3 x57 x3c x36)) O
O)))
O)
O)
O)))
O)
O)
(C x33 (Some (W x52 xbe x41 x91 x2d x68 x42 x67)) (C x5f None (C x30 None (C x30 (Some (W xcf x5c x64 xf3 xd9 xb4 x37 x09)) (C x5f None (C x30 None (C x30 (Some (W x10 x6e x46 xed x14 x7e x04 xd9)) O
(C x31 (Some (W xc3 x6f x46 xed x14 x7f x04 xd9)) O
(C x32 (Some (W x76 x71 x46 xed x14 x80 x04 xd9)) O
O)))
O)
O)
(C x31 (Some (W x1c x5b x64 xf3 xd9 xb3 x37 x09)) (C x5f None (C x30 None (C x30 (Some (W x21 x87 x38 x8c x0e x14 x6a xad)) O
(C x31 (Some (W x6e x85 x38 x8c x0e x13 x6a xad)) O
(C x32 (Some (W xbb x83 x38 x8c x0e x12 x6a xad)) O
O)))
O)
O)
(C x32 (Some (W x35 x60 x64 xf3 xd9 xb6 x37 x09)) (C x5f None (C x30 None (C x30 (Some (W x2e xaa x89 xd3 x27 xd2 x9e x06)) O
(C x31 (Some (W xe1 xab x89 xd3 x27 xd3 x9e x06)) O
(C x32 (Some (W xc8 xa6 x89 xd3 x27 xd0 x9e x06)) O
O)))
O)
O)
O)))
O)
O)
(C x34 (Some (W xd3 xb5 x41 x91 x2d x63 x42 x67)) (C x5f None (C x30 None (C x30 (Some (W x64 xa8 x2a x3a xb0 x42 x92 xd7)) (C x5f None (C x30 None (C x30 (Some (W xa9 xd2 x30 xe7 x8b x35 x35 x71)) O
(C x31 (Some (W xf6 xd0 x30 xe7 x8b x34 x35 x71)) O
(C x32 (Some (W x43 xcf x30 xe7 x8b x33 x35 x71)) O
O)))
O)
O)
(C x31 (Some (W x17 xaa x2a x3a xb0 x43 x92 xd7)) (C x5f None (C x30 None (C x30 (Some (W x18 x0f x99 xf6 x95 xff x57 x1c)) O
(C x31 (Some (W xcb x10 x99 xf6 x95 x00 x58 x1c)) O
(C x32 (Some (W x7e x12 x99 xf6 x95 x01 x58 x1c)) O
O)))
O)
O)
(C x32 (Some (W xca xab x2a x3a xb0 x44 x92 xd7)) (C x5f None (C x30 None (C x30 (Some (W xc7 x24 x03 x58 x9c x09 x5f x48)) O
(C x31 (Some (W x14 x23 x03 x58 x9c x08 x5f x48)) O
(C x32 (Some (W x2d x28 x03 x58 x9c x0b x5f x48)) O
O)))
O)
O)
O)))
O)
O)
(C x35 (Some (W x20 xb4 x41 x91 x2d x62 x42 x67)) (C x5f None (C x30 None (C x30 (Some (W x55 x0f x1d x13 xab xf8 x56 xd6)) (C x5f None (C x30 None (C x30 (Some (W x8e xb1 xd0 x52 xb1 x68 xad xb8)) O
(C x31 (Some (W x41 xb3 xd0 x52 xb1 x69 xad xb8)) O
(C x32 (Some (W x28 xae xd0 x52 xb1 x66 xad xb8)) O
O)))
O)
O)
(C x31 (Some (W xa2 x0d x1d x13 xab xf7 x56 xd6)) (C x5f None (C x30 None (C x30 (Some (W x9f x46 x66 x2b xac x1e x05 xb7)) O
(C x31 (Some (W xec x44 x66 x2b xac x1d x05 xb7)) O
(C x32 (Some (W x05 x4a x66 x2b xac x20 x05 xb7)) O
O)))
O)
O)
(C x32 (Some (W xef x0b x1d x13 xab xf6 x56 xd6)) (C x5f None (C x30 None (C x30 (Some (W xf0 x85 xfd xe1 xa0 x14 x83 xe1)) O
(C x31 (Some (W xa3 x87 xfd xe1 xa0 x15 x83 xe1)) O
(C x32 (Some (W x56 x89 xfd xe1 xa0 x16 x83 xe1)) O
O)))
O)
O)
O)))
O)
O)
(C x36 (Some (W x39 xb9 x41 x91 x2d x65 x42 x67)) (C x5f None (C x30 None (C x30 (Some (W x42 x8f x12 x20 xc3 x76 xc0 x04)) (C x5f None (C x30 None (C x30 (Some (W x7f xa4 x19 x6e x24 x08 x82 xa6)) O
(C x31 (Some (W xcc xa2 x19 x6e x24 x07 x82 xa6)) O
(C x32 (Some (W xe5 xa7 x19 x6e x24 x0a x82 xa6)) O
O)))
O)
O)
(C x31 (Some (W xf5 x90 x12 x20 xc3 x77 xc0 x04)) (C x5f None (C x30 None (C x30 (Some (W xee x64 x83 x09 x2c xd2 xe7 xfc)) O
(C x31 (Some (W xa1 x66 x83 x09 x2c xd3 xe7 xfc)) O
(C x32 (Some (W x88 x61 x83 x09 x2c xd0 xe7 xfc)) O
O)))
O)
O)
(C x32 (Some (W xdc x8b x12 x20 xc3 x74 xc0 x04)) (C x5f None (C x30 None (C x30 (Some (W xe1 x41 x32 xc2 x12 x14 xb3 xa3)) O
(C x31 (Some (W x2e x40 x32 xc2 x12 x13 xb3 xa3)) O
(C x32 (Some (W x7b x3e x32 xc2 x12 x12 xb3 xa3)) O
O)))
O)
O)
O)))
O)
O)
(C x37 (Some (W x86 xb7 x41 x91 x2d x64 x42 x67)) (C x5f None (C x30 None (C x30 (Some (W xb3 x32 x93 x83 xbb x2c x14 xad)) (C x5f None (C x30 None (C x30 (Some (W x84 xde x57 x93 x6b x88 x04 xa4)) O
(C x31 (Some (W x37 xe0 x57 x93 x6b x89 x04 xa4)) O
(C x32 (Some (W xea xe1 x57 x93 x6b x8a x04 xa4)) O
O)))
O)
O)
(C x31 (Some (W x00 x31 x93 x83 xbb x2b x14 xad)) (C x5f None (C x30 None (C x30 (Some (W x75 x5b xd9 xf6 x63 xbe x58 x4c)) O
(C x31 (Some (W xc2 x59 xd9 xf6 x63 xbd x58 x4c)) O
(C x32 (Some (W x0f x58 xd9 xf6 x63 xbc x58 x4c)) O
O)))
O)
O)
(C x32 (Some (W x19 x36 x93 x83 xbb x2e x14 xad)) (C x5f None (C x30 None (C x30 (Some (W xe2 x01 xce x03 x7c xbc xc1 x7a)) O
(C x31 (Some (W x95 x03 xce x03 x7c xbd xc1 x7a)) O
(C x32 (Some (W x7c xfe xcd x03 x7c xba xc1 x7a)) O
O)))
O)
O)
O)))
O)
O)
(C x38 (Some (W x37 xca x41 x91 x2d x6f x42 x67)) (C x5f None (C x30 None (C x30 (Some (W xf8 xe6 x12 x91 x16 x7b x57 x66)) (C x5f None (C x30 None (C x30 (Some (W xcd xac xb5 x65 xac x5c xe5 x25)) O
(C x31 (Some (W x1a xab xb5 x65 xac x5b xe5 x25)) O
(C x32 (Some (W x67 xa9 xb5 x65 xac x5a xe5 x25)) O
O)))
O)
O)
(C x31 (Some (W xab xe8 x12 x91 x16 x7c x57 x66)) (C x5f None (C x30 None (C x30 (Some (W x1c x37 x1e xaf xb7 x46 x67 xfb)) O
(C x31 (Some (W xcf x38 x1e xaf xb7 x47 x67 xfb)) O
(C x32 (Some (W x82 x3a x1e xaf xb7 x48 x67 xfb)) O
O)))
O)
O)
(C x32 (Some (W x5e xea x12 x91 x16 x7d x57 x66)) (C x5f None (C x30 None (C x30 (Some (W x2b xd0 x2b xd6 xbc x90 xa2 xfc)) O
(C x31 (Some (W x78 xce x2b xd6 xbc x8f xa2 xfc)) O
(C x32 (Some (W x91 xd3 x2b xd6 xbc x92 xa2 xfc)) O
O)))
O)
O)
O)))
O)
O)
(C x39 (Some (W x84 xc8 x41 x91 x2d x6e x42 x67)) (C x5f None (C x30 None (C x30 (Some (W x89 x26 xa9 xf5 x0e xb1 xf1 x0f)) (C x5f None (C x30 None (C x30 (Some (W x92 x2d x71 x4f xf9 xee x2c x0d)) O
(C x31 (Some (W x45 x2f x71 x4f xf9 xef x2c x0d)) O
(C x32 (Some (W x2c x2a x71 x4f xf9 xec x2c x0d)) O
O)))
O)
O)
(C x31 (Some (W xd6 x24 xa9 xf5 x0e xb0 xf1 x0f)) (C x5f None (C x30 None (C x30 (Some (W xc3 x3e x65 x06 xee xe4 x17 x38)) O
(C x31 (Some (W x10 x3d x65 x06 xee xe3 x17 x38)) O
(C x32 (Some (W x29 x42 x65 x06 xee xe6 x17 x38)) O
O)))
O)
O)
(C x32 (Some (W x23 x23 xa9 xf5 x0e xaf xf1 x0f)) (C x5f None (C x30 None (C x30 (Some (W xb4 x75 x89 xdd xe8 xba xbc x34)) O
(C x31 (Some (W x67 x77 x89 xdd xe8 xbb xbc x34)) O
(C x32 (Some (W x1a x79 x89 xdd xe8 xbc xbc x34)) O
O)))
O)
O)
O)))
O)
O)
O))))))))))
(C x37 None (C x30 (Some (W x16 xa3 x3e x91 x2d xe1 x3e x67)) (C x5f None (C x30 None (C x30 (Some (W x03 x69 x43 xa6 x9e x0c x17 x6d)) (C x5f None (C x30 None (C x30 (Some (W xd4 xbf xc2 x73 x69 x6f x3d x6c)) O
(C x31 (Some (W x87 xc1 xc2 x73 x69 x70 x3d x6c)) O
(C x32 (Some (W x3a xc3 xc2 x73 x69 x71 x3d x6c)) O
O)))
O)
O)
(C x31 (Some (W x50 x67 x43 xa6 x9e x0b x17 x6d)) (C x5f None (C x30 None (C x30 (Some (W x85 x3c x45 x29 x5e x65 x75 x95)) O
(C x31 (Some (W xd2 x3a x45 x29 x5e x64 x75 x95)) O
(C x32 (Some (W x1f x39 x45 x29 x5e x63 x75 x95)) O
O)))
O)
O)
(C x32 (Some (W x69 x6c x43 xa6 x9e x0e x17 x6d)) (C x5f None (C x30 None (C x30 (Some (W x32 x22 xab x71 x77 x23 xf0 xef)) O
(C x31 (Some (W xe5 x23 xab x71 x77 x24 xf0 xef)) O
(C x32 (Some (W xcc x1e xab x71 x77 x21 xf0 xef)) O
O)))
O)
O)
O)))
O)
O)
(C x31 (Some (W xc9 xa4 x3e x91 x2d xe2 x3e x67)) (C x5f None (C x30 None (C x30 (Some (W xd2 xac x50 x07 xa5 x16 xb1 x98)) (C x5f None (C x30 None (C x30 (Some (W x4f xac x80 xd5 xfb x08 xfc xc9)) O
(C x31 (Some (W x9c xaa x80 xd5 xfb x07 xfc xc9)) O
(C x32 (Some (W xb5 xaf x80 xd5 xfb x0a xfc xc9)) O
O)))
O)
O)
(C x31 (Some (W x85 xae x50 x07 xa5 x17 xb1 x98)) (C x5f None (C x30 None (C x30 (Some (W x7e x93 xe8 x1e x07 x93 x7d x9f)) O
(C x31 (Some (W x31 x95 xe8 x1e x07 x94 x7d x9f)) O
(C x32 (Some (W x18 x90 xe8 x1e x07 x91 x7d x9f)) O
O)))
O)
O)
(C x32 (Some (W x6c xa9 x50 x07 xa5 x14 xb1 x98)) (C x5f None (C x30 None (C x30 (Some (W xf1 x1a x98 x63 xeb x54 x8b xf1)) O
(C x31 (Some (W x3e x19 x98 x63 xeb x53 x8b xf1)) O
(C x32 (Some (W x8b x17 x98 x63 xeb x52 x8b xf1)) O
O)))
O)
O)
O)))
O)
O)
(C x32 (Some (W xb0 x9f x3e x91 x2d xdf x3e x67)) (C x5f None (C x30 None (C x30 (Some (W xa5 xd7 x5a x34 x8e x58 xa6 x94)) (C x5f None (C x30 None (C x30 (Some (W xde x02 x19 xe6 x47 x36 x8f x82)) O
(C x31 (Some (W x91 x04 x19 xe6 x47 x37 x8f x82)) O
(C x32 (Some (W x78 xff x18 xe6 x47 x34 x8f x82)) O
O)))
O)
O)
(C x31 (Some (W xf2 xd5 x5a x34 x8e x57 xa6 x94)) (C x5f None (C x30 None (C x30 (Some (W xaf xad x3e x9b x3c x2c x5a xab)) O
(C x31 (Some (W xfc xab x3e x9b x3c x2b x5a xab)) O
(C x32 (Some (W x15 xb1 x3e x9b x3c x2e x5a xab)) O
O)))
O)
O)
(C x32 (Some (W x3f xd4 x5a x34 x8e x56 xa6 x94)) (C x5f None (C x30 None (C x30 (Some (W x00 x98 xd4 x39 x36 x22 x53 x7f)) O
(C x31 (Some (W xb3 x99 xd4 x39 x36 x23 x53 x7f)) O
(C x32 (Some (W x66 x9b xd4 x39 x36 x24 x53 x7f)) O
O)))
O)
O)
O)))
O)
O)
(C x33 (Some (W x63 xa1 x3e x91 x2d xe0 x3e x67)) (C x5f None (C x30 None (C x30 (Some (W xf4 xf4 x68 x95 x94 xe2 x40 xc0)) (C x5f None (C x30 None (C x30 (Some (W xf9 x65 x58 x62 x05 xd4 x36 xdd)) O
(C x31 (Some (W x46 x64 x58 x62 x05 xd3 x36 xdd)) O
(C x32 (Some (W x93 x62 x58 x62 x05 xd2 x36 xdd)) O
O)))
O)
O)
(C x31 (Some (W xa7 xf6 x68 x95 x94 xe3 x40 xc0)) (C x5f None (C x30 None (C x30 (Some (W xa8 x26 xc1 xab x10 xde xb8 xb2)) O
(C x31 (Some (W x5b x28 xc1 xab x10 xdf xb8 xb2)) O
(C x32 (Some (W x0e x2a xc1 xab x10 xe0 xb8 xb2)) O
O)))
O)
O)
(C x32 (Some (W x5a xf8 x68 x95 x94 xe4 x40 xc0)) (C x5f None (C x30 None (C x30 (Some (W x17 xb8 x2a xd3 x15 xa8 x60 xb4)) O
(C x31 (Some (W x64 xb6 x2a xd3 x15 xa7 x60 xb4)) O
(C x32 (Some (W x7d xbb x2a xd3 x15 xaa x60 xb4)) O
O)))
O)
O)
O)))
O)
O)
(C x34 (Some (W xe2 xa9 x3e x91 x2d xe5 x3e x67)) (C x5f None (C x30 None (C x30 (Some (W xdf xcf xa1 x4e xbe xd4 xe5 xf1)) (C x5f None (C x30 None (C x30 (Some (W x60 x4d x01 x4f x63 x18 x63 x49)) O
(C x31 (Some (W x13 x4f x01 x4f x63 x19 x63 x49)) O
(C x32 (Some (W xc6 x50 x01 x4f x63 x1a x63 x49)) O
O)))
O)
O)
(C x31 (Some (W x2c xce xa1 x4e xbe xd3 xe5 xf1)) (C x5f None (C x30 None (C x30 (Some (W xb1 x7c x81 x26 x5e x6e x74 x46)) O
(C x31 (Some (W xfe x7a x81 x26 x5e x6d x74 x46)) O
(C x32 (Some (W x4b x79 x81 x26 x5e x6c x74 x46)) O
O)))
O)
O)
(C x32 (Some (W x45 xd3 xa1 x4e xbe xd6 xe5 xf1)) (C x5f None (C x30 None (C x30 (Some (W x3e x4a xd3 xf9 x74 xac xeb x4a)) O
(C x31 (Some (W xf1 x4b xd3 xf9 x74 xad xeb x4a)) O
(C x32 (Some (W xd8 x46 xd3 xf9 x74 xaa xeb x4a)) O
O)))
O)
O)
O)))
O)
O)
(C x35 (Some (W x95 xab x3e x91 x2d xe6 x3e x67)) (C x5f None (C x30 None (C x30 (Some (W xce xe5 x0a x5e xc8 x1e x09 x9d)) (C x5f None (C x30 None (C x30 (Some (W xdb x54 xb6 x0a x91 xdf xb6 x2a)) O
(C x31 (Some (W x28 x53 xb6 x0a x91 xde xb6 x2a)) O
(C x32 (Some (W x41 x58 xb6 x0a x91 xe1 xb6 x2a)) O
O)))
O)
O)
(C x31 (Some (W x81 xe7 x0a x5e xc8 x1f x09 x9d)) (C x5f None (C x30 None (C x30 (Some (W x0a x3c x1e x54 x9c x69 x38 x00)) O
(C x31 (Some (W xbd x3d x1e x54 x9c x6a x38 x00)) O
(C x32 (Some (W xa4 x38 x1e x54 x9c x67 x38 x00)) O
O)))
O)
O)
(C x32 (Some (W x68 xe2 x0a x5e xc8 x1c x09 x9d)) (C x5f None (C x30 None (C x30 (Some (W x7d xc3 xcd x98 x80 x2b x46 x52)) O
(C x31 (Some (W xca xc1 xcd x98 x80 x2a x46 x52)) O
(C x32 (Some (W x17 xc0 xcd x98 x80 x29 x46 x52)) O
O)))
O)
O)
O)))
O)
O)
(C x36 (Some (W x7c xa6 x3e x91 x2d xe3 x3e x67)) (C x5f None (C x30 None (C x30 (Some (W x41 x6d xba xa2 xac xe0 x16 xef)) (C x5f None (C x30 None (C x30 (Some (W xca xbd x51 x98 xb2 x36 x1d x60)) O
(C x31 (Some (W x7d xbf x51 x98 xb2 x37 x1d x60)) O
(C x32 (Some (W x64 xba x51 x98 xb2 x34 x1d x60)) O
O)))
O)
O)
(C x31 (Some (W x8e x6b xba xa2 xac xdf x16 xef)) (C x5f None (C x30 None (C x30 (Some (W x9b x81 xe8 x36 xac xac x16 x34)) O
(C x31 (Some (W xe8 x7f xe8 x36 xac xab x16 x34)) O
(C x32 (Some (W x01 x85 xe8 x36 xac xae x16 x34)) O
O)))
O)
O)
(C x32 (Some (W xdb x69 xba xa2 xac xde x16 xef)) (C x5f None (C x30 None (C x30 (Some (W x4c xb9 xdb xed xa0 x22 x01 x5f)) O
(C x31 (Some (W xff xba xdb xed xa0 x23 x01 x5f)) O
(C x32 (Some (W xb2 xbc xdb xed xa0 x24 x01 x5f)) O
O)))
O)
O)
O)))
O)
O)
(C x37 (Some (W x2f xa8 x3e x91 x2d xe4 x3e x67)) (C x5f None (C x30 None (C x30 (Some (W x30 xba x37 xed xb7 xca xde xc5)) (C x5f None (C x30 None (C x30 (Some (W x25 x8b x8a xb5 x6b x57 xb0 x56)) O
(C x31 (Some (W x72 x89 x8a xb5 x6b x56 xb0 x56)) O
(C x32 (Some (W xbf x87 x8a xb5 x6b x55 xb0 x56)) O
O)))
O)
O)
(C x31 (Some (W xe3 xbb x37 xed xb7 xcb xde xc5)) (C x5f None (C x30 None (C x30 (Some (W x74 xa8 x98 x16 x72 xe1 x4a x82)) O
(C x31 (Some (W x27 xaa x98 x16 x72 xe2 x4a x82)) O
(C x32 (Some (W xda xab x98 x16 x72 xe3 x4a x82)) O
O)))
O)
O)
(C x32 (Some (W x96 xbd x37 xed xb7 xcc xde xc5)) (C x5f None (C x30 None (C x30 (Some (W x83 x1c x73 x27 x7c x0b x21 x2f)) O
(C x31 (Some (W xd0 x1a x73 x27 x7c x0a x21 x2f)) O
(C x32 (Some (W xe9 x1f x73 x27 x7c x0d x21 x2f)) O
O)))
O)
O)
O)))
O)
O)
(C x38 (Some (W xae xb0 x3e x91 x2d xe9 x3e x67)) (C x5f None (C x30 None (C x30 (Some (W x7b xcb x70 xa6 xe1 xdc x83 xf7)) (C x5f None (C x30 None (C x30 (Some (W xac x51 x33 xf4 xd1 x5c x9b x6c)) O
(C x31 (Some (W x5f x53 x33 xf4 xd1 x5d x9b x6c)) O
(C x32 (Some (W x12 x55 x33 xf4 xd1 x5e x9b x6c)) O
O)))
O)
O)
(C x31 (Some (W xc8 xc9 x70 xa6 xe1 xdb x83 xf7)) (C x5f None (C x30 None (C x30 (Some (W x9d xc7 xc9 x58 xca xb2 x35 x16)) O
(C x31 (Some (W xea xc5 xc9 x58 xca xb1 x35 x16)) O
(C x32 (Some (W x37 xc4 xc9 x58 xca xb0 x35 x16)) O
O)))
O)
O)
(C x32 (Some (W xe1 xce x70 xa6 xe1 xde x83 xf7)) (C x5f None (C x30 None (C x30 (Some (W xaa xea x1a xa0 xe3 x70 x6a x6f)) O
(C x31 (Some (W x5d xec x1a xa0 xe3 x71 x6a x6f)) O
(C x32 (Some (W x44 xe7 x1a xa0 xe3 x6e x6a x6f)) O
O)))
O)
O)
O)))
O)
O)
(C x39 (Some (W x61 xb2 x3e x91 x2d xea x3e x67)) (C x5f None (C x30 None (C x30 (Some (W x2a xe1 xda x07 xe8 xe6 x8a x23)) (C x5f None (C x30 None (C x30 (Some (W x67 x98 x04 xb0 xcf x7d x94 x33)) O
(C x31 (Some (W xb4 x96 x04 xb0 xcf x7c x94 x33)) O
(C x32 (Some (W xcd x9b x04 xb0 xcf x7f x94 x33)) O
O)))
O)
O)
(C x31 (Some (W xdd xe2 xda x07 xe8 xe7 x8a x23)) (C x5f None (C x30 None (C x30 (Some (W x16 xfb x11 xd7 xd4 xa7 xcf x34)) O
(C x31 (Some (W xc9 xfc x11 xd7 xd4 xa8 xcf x34)) O
(C x32 (Some (W xb0 xf7 x11 xd7 xd4 xa5 xcf x34)) O
O)))
O)
O)
(C x32 (Some (W xc4 xdd xda x07 xe8 xe4 x8a x23)) (C x5f None (C x30 None (C x30 (Some (W xc9 x82 xc0 xc9 xbc xa9 xf9 x05)) O
(C x31 (Some (W x16 x81 xc0 xc9 xbc xa8 xf9 x05)) O
(C x32 (Some (W x63 x7f xc0 xc9 xbc xa7 xf9 x05)) O
O)))
O)
O)
O)))
O)
O)
O))))))))))
(C x38 None (C x30 (Some (W x31 x16 x47 x91 x2d xf3 x48 x67)) (C x5f None (C x30 None (C x30 (Some (W xba xd1 xd0 x87 x13 x43 x93 xe9)) (C x5f None (C x30 None (C x30 (Some (W xb7 xb7 x8e xe2 x81 x76 xe6 x03)) O
(C x31 (Some (W x04 xb6 x8e xe2 x81 x75 xe6 x03)) O
(C x32 (Some (W x1d xbb x8e xe2 x81 x78 xe6 x03)) O
O)))
O)
O)
(C x31 (Some (W x6d xd3 xd0 x87 x13 x44 x93 xe9)) (C x5f None (C x30 None (C x30 (Some (W x26 xc5 x9b x43 x88 x60 x80 x2f)) O
(C x31 (Some (W xd9 xc6 x9b x43 x88 x61 x80 x2f)) O
(C x32 (Some (W xc0 xc1 x9b x43 x88 x5e x80 x2f)) O
O)))
O)
O)
(C x32 (Some (W x54 xce xd0 x87 x13 x41 x93 xe9)) (C x5f None (C x30 None (C x30 (Some (W x19 xa2 x4a xfc x6e xa2 x4b xd6)) O
(C x31 (Some (W x66 xa0 x4a xfc x6e xa1 x4b xd6)) O
(C x32 (Some (W xb3 x9e x4a xfc x6e xa0 x4b xd6)) O
O)))
O)
O)
O)))
O)
O)
(C x31 (Some (W x7e x14 x47 x91 x2d xf2 x48 x67)) (C x5f None (C x30 None (C x30 (Some (W x0b x11 x68 x3e x08 x39 x11 x14)) (C x5f None (C x30 None (C x30 (Some (W x3c x38 xf6 xe2 x99 x62 xa5 x25)) O
(C x31 (Some (W xef x39 xf6 xe2 x99 x63 xa5 x25)) O
(C x32 (Some (W xa2 x3b xf6 xe2 x99 x64 xa5 x25)) O
O)))
O)
O)
(C x31 (Some (W x58 x0f x68 x3e x08 x38 x11 x14)) (C x5f None (C x30 None (C x30 (Some (W xed xad x8d x99 x8e x78 x23 x50)) O
(C x31 (Some (W x3a xac x8d x99 x8e x77 x23 x50)) O
(C x32 (Some (W x87 xaa x8d x99 x8e x76 x23 x50)) O
O)))
O)
O)
(C x32 (Some (W x71 x14 x68 x3e x08 x3b x11 x14)) (C x5f None (C x30 None (C x30 (Some (W xfa xd0 xde xe0 xa7 x36 x58 xa9)) O
(C x31 (Some (W xad xd2 xde xe0 xa7 x37 x58 xa9)) O
(C x32 (Some (W x94 xcd xde xe0 xa7 x34 x58 xa9)) O
O)))
O)
O)
O)))
O)
O)
(C x32 (Some (W xcb x12 x47 x91 x2d xf1 x48 x67)) (C x5f None (C x30 None (C x30 (Some (W xfc x8d xe9 xa1 x00 x6f x65 xbc)) (C x5f None (C x30 None (C x30 (Some (W xc1 x0f x14 x3b x07 xe7 x02 x77)) O
(C x31 (Some (W x0e x0e x14 x3b x07 xe6 x02 x77)) O
(C x32 (Some (W x5b x0c x14 x3b x07 xe5 x02 x77)) O
O)))
O)
O)
(C x31 (Some (W xaf x8f xe9 xa1 x00 x70 x65 xbc)) (C x5f None (C x30 None (C x30 (Some (W xb0 x5c x91 x85 x12 xd1 xca x4d)) O
(C x31 (Some (W x63 x5e x91 x85 x12 xd2 xca x4d)) O
(C x32 (Some (W x16 x60 x91 x85 x12 xd3 xca x4d)) O
O)))
O)
O)
(C x32 (Some (W x62 x91 xe9 xa1 x00 x71 x65 xbc)) (C x5f None (C x30 None (C x30 (Some (W x5f x72 xfb xe6 x18 xdb xd1 x79)) O
(C x31 (Some (W xac x70 xfb xe6 x18 xda xd1 x79)) O
(C x32 (Some (W xc5 x75 xfb xe6 x18 xdd xd1 x79)) O
O)))
O)
O)
O)))
O)
O)
(C x33 (Some (W x18 x11 x47 x91 x2d xf0 x48 x67)) (C x5f None (C x30 None (C x30 (Some (W xad xae x7f x40 xfa x84 x5e x90)) (C x5f None (C x30 None (C x30 (Some (W x66 x0e xb1 x68 x1a x47 x12 x84)) O
(C x31 (Some (W x19 x10 xb1 x68 x1a x48 x12 x84)) O
(C x32 (Some (W x00 x0b xb1 x68 x1a x45 x12 x84)) O
O)))
O)
O)
(C x31 (Some (W xfa xac x7f x40 xfa x83 x5e x90)) (C x5f None (C x30 None (C x30 (Some (W xf7 x55 xa5 x1f x0f x5d xfd xae)) O
(C x31 (Some (W x44 x54 xa5 x1f x0f x5c xfd xae)) O
(C x32 (Some (W x5d x59 xa5 x1f x0f x5f xfd xae)) O
O)))
O)
O)
(C x32 (Some (W x47 xab x7f x40 xfa x82 x5e x90)) (C x5f None (C x30 None (C x30 (Some (W x88 x95 x3b x84 x07 x93 x97 x58)) O
(C x31 (Some (W x3b x97 x3b x84 x07 x94 x97 x58)) O
(C x32 (Some (W xee x98 x3b x84 x07 x95 x97 x58)) O
O)))
O)
O)
O)))
O)
O)
(C x34 (Some (W xfd x1c x47 x91 x2d xf7 x48 x67)) (C x5f None (C x30 None (C x30 (Some (W x76 xc5 xa1 xf7 x31 xab xb6 x45)) (C x5f None (C x30 None (C x30 (Some (W xa3 x12 x7e x76 x20 x2b x6a x3a)) O
(C x31 (Some (W xf0 x10 x7e x76 x20 x2a x6a x3a)) O
(C x32 (Some (W x09 x16 x7e x76 x20 x2d x6a x3a)) O
O)))
O)
O)
(C x31 (Some (W x29 xc7 xa1 xf7 x31 xac xb6 x45)) (C x5f None (C x30 None (C x30 (Some (W xf2 x95 xfb xc0 x2b x35 x32 x11)) O
(C x31 (Some (W xa5 x97 xfb xc0 x2b x36 x32 x11)) O
(C x32 (Some (W x8c x92 xfb xc0 x2b x33 x32 x11)) O
O)))
O)
O)
(C x32 (Some (W x10 xc2 xa1 xf7 x31 xa9 xb6 x45)) (C x5f None (C x30 None (C x30 (Some (W x45 xb0 x95 x78 x12 x77 xb7 xb6)) O
(C x31 (Some (W x92 xae x95 x78 x12 x76 xb7 xb6)) O
(C x32 (Some (W xdf xac x95 x78 x12 x75 xb7 xb6)) O
O)))
O)
O)
O)))
O)
O)
(C x35 (Some (W x4a x1b x47 x91 x2d xf6 x48 x67)) (C x5f None (C x30 None (C x30 (Some (W x47 x9f x22 x5b x2a x81 x0a xee)) (C x5f None (C x30 None (C x30 (Some (W x88 x91 x2c x29 x71 xac xbc x0d)) O
(C x31 (Some (W x3b x93 x2c x29 x71 xad xbc x0d)) O
(C x32 (Some (W xee x94 x2c x29 x71 xae xbc x0d)) O
O)))
O)
O)
(C x31 (Some (W x94 x9d x22 x5b x2a x80 x0a xee)) (C x5f None (C x30 None (C x30 (Some (W x59 xe7 x50 xc6 x6a xa2 x02 xe0)) O
(C x31 (Some (W xa6 xe5 x50 xc6 x6a xa1 x02 xe0)) O
(C x32 (Some (W xf3 xe3 x50 xc6 x6a xa0 x02 xe0)) O
O)))
O)
O)
(C x32 (Some (W xad xa2 x22 x5b x2a x83 x0a xee)) (C x5f None (C x30 None (C x30 (Some (W x66 x0a xa2 x0d x84 x60 x37 x39)) O
(C x31 (Some (W x19 x0c xa2 x0d x84 x61 x37 x39)) O
(C x32 (Some (W x00 x07 xa2 x0d x84 x5e x37 x39)) O
O)))
O)
O)
O)))
O)
O)
(C x36 (Some (W x97 x19 x47 x91 x2d xf5 x48 x67)) (C x5f None (C x30 None (C x30 (Some (W x98 x89 xb8 xf9 x23 x77 x03 xc2)) (C x5f None (C x30 None (C x30 (Some (W x2d x2c x5a x55 x78 xab x3e xf0)) O
(C x31 (Some (W x7a x2a x5a x55 x78 xaa x3e xf0)) O
(C x32 (Some (W xc7 x28 x5a x55 x78 xa9 x3e xf0)) O
O)))
O)
O)
(C x31 (Some (W x4b x8b xb8 xf9 x23 x78 x03 xc2)) (C x5f None (C x30 None (C x30 (Some (W x7c x0b xc4 xb6 x7e x95 x45 x1c)) O
(C x31 (Some (W x2f x0d xc4 xb6 x7e x96 x45 x1c)) O
(C x32 (Some (W xe2 x0e xc4 xb6 x7e x97 x45 x1c)) O
O)))
O)
O)
(C x32 (Some (W xfe x8c xb8 xf9 x23 x79 x03 xc2)) (C x5f None (C x30 None (C x30 (Some (W x8b x8e x42 x53 x86 x5f xf1 x73)) O
(C x31 (Some (W xd8 x8c x42 x53 x86 x5e xf1 x73)) O
(C x32 (Some (W xf1 x91 x42 x53 x86 x61 xf1 x73)) O
O)))
O)
O)
O)))
O)
O)
(C x37 (Some (W xe4 x17 x47 x91 x2d xf4 x48 x67)) (C x5f None (C x30 None (C x30 (Some (W x29 x4d x50 xea x19 xad xe0 x16)) (C x5f None (C x30 None (C x30 (Some (W xf2 x17 x83 xee x76 xa8 x9f x36)) O
(C x31 (Some (W xa5 x19 x83 xee x76 xa9 x9f x36)) O
(C x32 (Some (W x8c x14 x83 xee x76 xa6 x9f x36)) O
O)))
O)
O)
(C x31 (Some (W x76 x4b x50 xea x19 xac xe0 x16)) (C x5f None (C x30 None (C x30 (Some (W xa3 x94 x05 xa4 x6b x9e xd7 x5f)) O
(C x31 (Some (W xf0 x92 x05 xa4 x6b x9d xd7 x5f)) O
(C x32 (Some (W x09 x98 x05 xa4 x6b xa0 xd7 x5f)) O
O)))
O)
O)
(C x32 (Some (W xc3 x49 x50 xea x19 xab xe0 x16)) (C x5f None (C x30 None (C x30 (Some (W x94 x0a x9c x08 x64 xf4 x71 x09)) O
(C x31 (Some (W x47 x0c x9c x08 x64 xf5 x71 x09)) O
(C x32 (Some (W xfa x0d x9c x08 x64 xf6 x71 x09)) O
O)))
O)
O)
O)))
O)
O)
(C x38 (Some (W x99 x08 x47 x91 x2d xeb x48 x67)) (C x5f None (C x30 None (C x30 (Some (W x62 x9d x46 x87 xd0 x72 xb9 x5e)) (C x5f None (C x30 None (C x30 (Some (W x5f x76 x0a x42 xaf xc1 xac xc4)) O
(C x31 (Some (W xac x74 x0a x42 xaf xc0 xac xc4)) O
(C x32 (Some (W xc5 x79 x0a x42 xaf xc3 xac xc4)) O
O)))
O)
O)
(C x31 (Some (W x15 x9f x46 x87 xd0 x73 xb9 x5e)) (C x5f None (C x30 None (C x30 (Some (W x4e x8c x73 x51 xb9 x0b xd0 x6f)) O
(C x31 (Some (W x01 x8e x73 x51 xb9 x0c xd0 x6f)) O
(C x32 (Some (W xe8 x88 x73 x51 xb9 x09 xd0 x6f)) O
O)))
O)
O)
(C x32 (Some (W xfc x99 x46 x87 xd0 x70 xb9 x5e)) (C x5f None (C x30 None (C x30 (Some (W xc1 x13 x23 x96 x9d xcd xdd xc1)) O
(C x31 (Some (W x0e x12 x23 x96 x9d xcc xdd xc1)) O
(C x32 (Some (W x5b x10 x23 x96 x9d xcb xdd xc1)) O
O)))
O)
O)
O)))
O)
O)
(C x39 (Some (W xe6 x06 x47 x91 x2d xea x48 x67)) (C x5f None (C x30 None (C x30 (Some (W x53 x59 x3a x78 xc6 x28 x03 xb4)) (C x5f None (C x30 None (C x30 (Some (W xe4 xde xf8 xbc xe6 xc1 x06 x77)) O
(C x31 (Some (W x97 xe0 xf8 xbc xe6 xc2 x06 x77)) O
(C x32 (Some (W x4a xe2 xf8 xbc xe6 xc3 x06 x77)) O
O)))
O)
O)
(C x31 (Some (W xa0 x57 x3a x78 xc6 x27 x03 xb4)) (C x5f None (C x30 None (C x30 (Some (W xd5 x45 xeb x95 xe1 x77 xcb x75)) O
(C x31 (Some (W x22 x44 xeb x95 xe1 x76 xcb x75)) O
(C x32 (Some (W x6f x42 xeb x95 xe1 x75 xcb x75)) O
O)))
O)
O)
(C x32 (Some (W xb9 x5c x3a x78 xc6 x2a x03 xb4)) (C x5f None (C x30 None (C x30 (Some (W xc2 xc5 xe0 xa2 xf9 xf5 x34 xa4)) O
(C x31 (Some (W x75 xc7 xe0 xa2 xf9 xf6 x34 xa4)) O
(C x32 (Some (W x5c xc2 xe0 xa2 xf9 xf3 x34 xa4)) O
O)))
O)
O)
O)))
O)
O)
O))))))))))
(C x39 None (C x30 (Some (W x28 xd6 x44 x91 x2d xed x45 x67)) (C x5f None (C x30 None (C x30 (Some (W x3d x6a x9b xb6 x09 xa9 x62 x76)) (C x5f None (C x30 None (C x30 (Some (W xb6 x34 x56 xb4 x91 x26 xaf x9d)) O
(C x31 (Some (W x69 x36 x56 xb4 x91 x27 xaf x9d)) O
(C x32 (Some (W x50 x31 x56 xb4 x91 x24 xaf x9d)) O
O)))
O)
O)
(C x31 (Some (W x8a x68 x9b xb6 x09 xa8 x62 x76)) (C x5f None (C x30 None (C x30 (Some (W x87 x0e xd7 x17 x8a xfc x02 x46)) O
(C x31 (Some (W xd4 x0c xd7 x17 x8a xfb x02 x46)) O
(C x32 (Some (W xed x11 xd7 x17 x8a xfe x02 x46)) O
O)))
O)
O)
(C x32 (Some (W xd7 x66 x9b xb6 x09 xa7 x62 x76)) (C x5f None (C x30 None (C x30 (Some (W xd8 x4d x6e xce x7e xf2 x80 x70)) O
(C x31 (Some (W x8b x4f x6e xce x7e xf3 x80 x70)) O
(C x32 (Some (W x3e x51 x6e xce x7e xf4 x80 x70)) O
O)))
O)
O)
O)))
O)
O)
(C x31 (Some (W xdb xd7 x44 x91 x2d xee x45 x67)) (C x5f None (C x30 None (C x30 (Some (W x4c x33 x77 xdf x0e xd3 xbd x79)) (C x5f None (C x30 None (C x30 (Some (W x91 xaa xfb xeb x02 x8f xd6 xec)) O
(C x31 (Some (W xde xa8 xfb xeb x02 x8e xd6 xec)) O
(C x32 (Some (W x2b xa7 xfb xeb x02 x8d xd6 xec)) O
O)))
O)
O)
(C x31 (Some (W xff x34 x77 xdf x0e xd4 xbd x79)) (C x5f None (C x30 None (C x30 (Some (W xc0 x62 x08 x87 x0a x39 xcf x42)) O
(C x31 (Some (W x73 x64 x08 x87 x0a x3a xcf x42)) O
(C x32 (Some (W x26 x66 x08 x87 x0a x3b xcf x42)) O
O)))
O)
O)
(C x32 (Some (W xb2 x36 x77 xdf x0e xd5 xbd x79)) (C x5f None (C x30 None (C x30 (Some (W x6f x23 x71 xd0 x15 x43 x51 x18)) O
(C x31 (Some (W xbc x21 x71 xd0 x15 x42 x51 x18)) O
(C x32 (Some (W xd5 x26 x71 xd0 x15 x45 x51 x18)) O
O)))
O)
O)
O)))
O)
O)
(C x32 (Some (W x8e xd9 x44 x91 x2d xef x45 x67)) (C x5f None (C x30 None (C x30 (Some (W x9b xfb x83 x28 x1a x5d xd3 x4e)) (C x5f None (C x30 None (C x30 (Some (W x0c xea x5b x42 xb3 xdf xc9 x87)) O
(C x31 (Some (W xbf xeb x5b x42 xb3 xe0 xc9 x87)) O
(C x32 (Some (W x72 xed x5b x42 xb3 xe1 xc9 x87)) O
O)))
O)
O)
(C x31 (Some (W xe8 xf9 x83 x28 x1a x5c xd3 x4e)) (C x5f None (C x30 None (C x30 (Some (W xfd x75 x81 x31 xa9 xb5 xf3 xda)) O
(C x31 (Some (W x4a x74 x81 x31 xa9 xb4 xf3 xda)) O
(C x32 (Some (W x97 x72 x81 x31 xa9 xb3 xf3 xda)) O
O)))
O)
O)
(C x32 (Some (W x01 xff x83 x28 x1a x5f xd3 x4e)) (C x5f None (C x30 None (C x30 (Some (W x8a xee xd1 xec xc4 xf3 xe5 x88)) O
(C x31 (Some (W x3d xf0 xd1 xec xc4 xf4 xe5 x88)) O
(C x32 (Some (W x24 xeb xd1 xec xc4 xf1 xe5 x88)) O
O)))
O)
O)
O)))
O)
O)
(C x33 (Some (W x41 xdb x44 x91 x2d xf0 x45 x67)) (C x5f None (C x30 None (C x30 (Some (W xca x37 xed x89 x20 xe7 xd9 x7a)) (C x5f None (C x30 None (C x30 (Some (W xc7 xa8 xde xf9 x80 xfc x3e xa6)) O
(C x31 (Some (W x14 xa7 xde xf9 x80 xfb x3e xa6)) O
(C x32 (Some (W x2d xac xde xf9 x80 xfe x3e xa6)) O
O)))
O)
O)
(C x31 (Some (W x7d x39 xed x89 x20 xe8 xd9 x7a)) (C x5f None (C x30 None (C x30 (Some (W xf6 xce x5d x96 x88 x26 xeb xfd)) O
(C x31 (Some (W xa9 xd0 x5d x96 x88 x27 xeb xfd)) O
(C x32 (Some (W x90 xcb x5d x96 x88 x24 xeb xfd)) O
O)))
O)
O)
(C x32 (Some (W x64 x34 xed x89 x20 xe5 xd9 x7a)) (C x5f None (C x30 None (C x30 (Some (W xa9 x56 x0c x89 x70 x28 x15 xcf)) O
(C x31 (Some (W xf6 x54 x0c x89 x70 x27 x15 xcf)) O
(C x32 (Some (W x43 x53 x0c x89 x70 x26 x15 xcf)) O
O)))
O)
O)
O)))
O)
O)
(C x34 (Some (W xf4 xdc x44 x91 x2d xf1 x45 x67)) (C x5f None (C x30 None (C x30 (Some (W xf9 x5d x6c x26 x28 x11 x86 xd2)) (C x5f None (C x30 None (C x30 (Some (W x02 xc6 x45 x48 x30 xfb x32 xd4)) O
(C x31 (Some (W xb5 xc7 x45 x48 x30 xfc x32 xd4)) O
(C x32 (Some (W x9c xc2 x45 x48 x30 xf9 x32 xd4)) O
O)))
O)
O)
(C x31 (Some (W x46 x5c x6c x26 x28 x10 x86 xd2)) (C x5f None (C x30 None (C x30 (Some (W x73 x69 xc6 xab x28 xb1 x86 x7c)) O
(C x31 (Some (W xc0 x67 xc6 xab x28 xb0 x86 x7c)) O
(C x32 (Some (W xd9 x6c xc6 xab x28 xb3 x86 x7c)) O
O)))
O)
O)
(C x32 (Some (W x93 x5a x6c x26 x28 x0f x86 xd2)) (C x5f None (C x30 None (C x30 (Some (W x24 x8a x5c x4a x22 xc7 x7f x50)) O
(C x31 (Some (W xd7 x8b x5c x4a x22 xc8 x7f x50)) O
(C x32 (Some (W x8a x8d x5c x4a x22 xc9 x7f x50)) O
O)))
O)
O)
O)))
O)
O)
(C x35 (Some (W xa7 xde x44 x91 x2d xf2 x45 x67)) (C x5f None (C x30 None (C x30 (Some (W xa8 x1e xd5 x6f x33 x1b x08 xa8)) (C x5f None (C x30 None (C x30 (Some (W xbd xd7 x6a xf4 x1b xcf xdc x2f)) O
(C x31 (Some (W x0a xd6 x6a xf4 x1b xce xdc x2f)) O
(C x32 (Some (W x57 xd4 x6a xf4 x1b xcd xdc x2f)) O
O)))
O)
O)
(C x31 (Some (W x5b x20 xd5 x6f x33 x1c x08 xa8)) (C x5f None (C x30 None (C x30 (Some (W xcc xa0 x46 x1d x21 xf9 x37 x33)) O
(C x31 (Some (W x7f xa2 x46 x1d x21 xfa x37 x33)) O
(C x32 (Some (W x32 xa4 x46 x1d x21 xfb x37 x33)) O
O)))
O)
O)
(C x32 (Some (W x0e x22 xd5 x6f x33 x1d x08 xa8)) (C x5f None (C x30 None (C x30 (Some (W x1b x69 x53 x66 x2c x83 x4d x08)) O
(C x31 (Some (W x68 x67 x53 x66 x2c x82 x4d x08)) O
(C x32 (Some (W x81 x6c x53 x66 x2c x85 x4d x08)) O
O)))
O)
O)
O)))
O)
O)
(C x36 (Some (W x5a xe0 x44 x91 x2d xf3 x45 x67)) (C x5f None (C x30 None (C x30 (Some (W x17 xb0 x3e x97 x38 xe5 xaf xa9)) (C x5f None (C x30 None (C x30 (Some (W x18 x11 xed x6a x2f x7f xca x54)) O
(C x31 (Some (W xcb x12 xed x6a x2f x80 xca x54)) O
(C x32 (Some (W x7e x14 xed x6a x2f x81 xca x54)) O
O)))
O)
O)
(C x31 (Some (W x64 xae x3e x97 x38 xe4 xaf xa9)) (C x5f None (C x30 None (C x30 (Some (W xa9 xd4 x84 x5b x25 xb5 xa7 xa9)) O
(C x31 (Some (W xf6 xd2 x84 x5b x25 xb4 xa7 xa9)) O
(C x32 (Some (W x43 xd1 x84 x5b x25 xb3 xa7 xa9)) O
O)))
O)
O)
(C x32 (Some (W x7d xb3 x3e x97 x38 xe7 xaf xa9)) (C x5f None (C x30 None (C x30 (Some (W xf6 x4c xd6 x68 x3d xb3 x7d xd8)) O
(C x31 (Some (W xa9 x4e xd6 x68 x3d xb4 x7d xd8)) O
(C x32 (Some (W x90 x49 xd6 x68 x3d xb1 x7d xd8)) O
O)))
O)
O)
O)))
O)
O)
(C x37 (Some (W x0d xe2 x44 x91 x2d xf4 x45 x67)) (C x5f None (C x30 None (C x30 (Some (W x86 xd6 xbc xe1 x43 x4f x78 x80)) (C x5f None (C x30 None (C x30 (Some (W xb3 xe7 x92 x67 x12 xe4 xa1 x1c)) O
(C x31 (Some (W x00 xe6 x92 x67 x12 xe3 xa1 x1c)) O
(C x32 (Some (W x19 xeb x92 x67 x12 xe6 xa1 x1c)) O
O)))
O)
O)
(C x31 (Some (W x39 xd8 xbc xe1 x43 x50 x78 x80)) (C x5f None (C x30 None (C x30 (Some (W x42 x44 x12 x04 x1a x2e x4e x74)) O
(C x31 (Some (W xf5 x45 x12 x04 x1a x2f x4e x74)) O
(C x32 (Some (W xdc x40 x12 x04 x1a x2c x4e x74)) O
O)))
O)
O)
(C x32 (Some (W x20 xd3 xbc xe1 x43 x4d x78 x80)) (C x5f None (C x30 None (C x30 (Some (W x55 xc4 x1c xf7 x01 xb0 xe4 x45)) O
(C x31 (Some (W xa2 xc2 x1c xf7 x01 xaf xe4 x45)) O
(C x32 (Some (W xef xc0 x1c xf7 x01 xae xe4 x45)) O
O)))
O)
O)
O)))
O)
O)
(C x38 (Some (W x90 xc8 x44 x91 x2d xe5 x45 x67)) (C x5f None (C x30 None (C x30 (Some (W xc5 x07 x6e xb6 xc6 xd8 xf5 xeb)) (C x5f None (C x30 None (C x30 (Some (W xbe x5b xd1 x4a x24 xb9 x8f xf2)) O
(C x31 (Some (W x71 x5d xd1 x4a x24 xba x8f xf2)) O
(C x32 (Some (W x58 x58 xd1 x4a x24 xb7 x8f xf2)) O
O)))
O)
O)
(C x31 (Some (W x12 x06 x6e xb6 xc6 xd7 xf5 xeb)) (C x5f None (C x30 None (C x30 (Some (W x8f x1f x68 xe9 x1d x2f x89 xc6)) O
(C x31 (Some (W xdc x1d x68 xe9 x1d x2e x89 xc6)) O
(C x32 (Some (W xf5 x22 x68 xe9 x1d x31 x89 xc6)) O
O)))
O)
O)
(C x32 (Some (W x5f x04 x6e xb6 xc6 xd6 xf5 xeb)) (C x5f None (C x30 None (C x30 (Some (W xe0 x5e xff x9f x12 x25 x07 xf1)) O
(C x31 (Some (W x93 x60 xff x9f x12 x26 x07 xf1)) O
(C x32 (Some (W x46 x62 xff x9f x12 x27 x07 xf1)) O
O)))
O)
O)
O)))
O)
O)
(C x39 (Some (W x43 xca x44 x91 x2d xe6 x45 x67)) (C x5f None (C x30 None (C x30 (Some (W x14 xe0 xec x18 xcd xe2 x42 x19)) (C x5f None (C x30 None (C x30 (Some (W xd9 x52 xe6 x3b xfa xe7 xcd x50)) O
(C x31 (Some (W x26 x51 xe6 x3b xfa xe6 xcd x50)) O
(C x32 (Some (W x73 x4f xe6 x3b xfa xe5 xcd x50)) O
O)))
O)
O)
(C x31 (Some (W xc7 xe1 xec x18 xcd xe3 x42 x19)) (C x5f None (C x30 None (C x30 (Some (W x08 xfd xc1 x9e x00 xf2 x87 x7e)) O
(C x31 (Some (W xbb xfe xc1 x9e x00 xf3 x87 x7e)) O
(C x32 (Some (W x6e x00 xc2 x9e x00 xf4 x87 x7e)) O
O)))
O)
O)
(C x32 (Some (W x7a xe3 xec x18 xcd xe4 x42 x19)) (C x5f None (C x30 None (C x30 (Some (W x77 xbd x2b x3a x08 xbc xed xd4)) O
(C x31 (Some (W xc4 xbb x2b x3a x08 xbb xed xd4)) O
(C x32 (Some (W xdd xc0 x2b x3a x08 xbe xed xd4)) O
O)))
O)
O)
O)))
O)
O)
O))))))))))
O))))))))))
O)
O)
O)
O)))))))
O)
O)
O)
(C x6c None (C x6e None (C x64 None (C x5f None (C x65 None (C x78 None (C x5f None (C x30 None (C x30 (Some (W xd0 x83 xd4 x61 xf7 xda xb2 x83)) O
(C x31 (Some (W x83 x85 xd4 x61 xf7 xdb xb2 x83)) O
(C x32 (Some (W x36 x87 xd4 x61 xf7 xdc xb2 x83)) O
(C x33 (Some (W xe9 x88 xd4 x61 xf7 xdd xb2 x83)) O
(C x34 (Some (W x9c x8a xd4 x61 xf7 xde xb2 x83)) O
(C x35 (Some (W x4f x8c xd4 x61 xf7 xdf xb2 x83)) O
(C x36 (Some (W x02 x8e xd4 x61 xf7 xe0 xb2 x83)) O
(C x37 (Some (W xb5 x8f xd4 x61 xf7 xe1 xb2 x83)) O
(C x38 (Some (W x68 x91 xd4 x61 xf7 xe2 xb2 x83)) O
(C x39 (Some (W x1b x93 xd4 x61 xf7 xe3 xb2 x83)) O
O))))))))))
(C x31 None (C x30 (Some (W xd9 xc3 xd6 x61 xf7 xe0 xb5 x83)) (C x30 (Some (W xeb xe4 xee x3f x5b x2d xd1 xa4)) O
(C x31 (Some (W x38 xe3 xee x3f x5b x2c xd1 xa4)) O
(C x32 (Some (W x51 xe8 xee x3f x5b x2f xd1 xa4)) O
(C x33 (Some (W x9e xe6 xee x3f x5b x2e xd1 xa4)) O
(C x34 (Some (W xb7 xeb xee x3f x5b x31 xd1 xa4)) O
(C x35 (Some (W x04 xea xee x3f x5b x30 xd1 xa4)) O
(C x36 (Some (W x1d xef xee x3f x5b x33 xd1 xa4)) O
(C x37 (Some (W x6a xed xee x3f x5b x32 xd1 xa4)) O
(C x38 (Some (W x53 xd7 xee x3f x5b x25 xd1 xa4)) O
(C x39 (Some (W xa0 xd5 xee x3f x5b x24 xd1 xa4)) O
O))))))))))
(C x31 (Some (W x26 xc2 xd6 x61 xf7 xdf xb5 x83)) (C x30 (Some (W x62 xcb xeb x3f x5b xa7 xcd xa4)) O
(C x31 (Some (W x15 xcd xeb x3f x5b xa8 xcd xa4)) O
(C x32 (Some (W xfc xc7 xeb x3f x5b xa5 xcd xa4)) O
(C x33 (Some (W xaf xc9 xeb x3f x5b xa6 xcd xa4)) O
(C x34 (Some (W x96 xc4 xeb x3f x5b xa3 xcd xa4)) O
(C x35 (Some (W x49 xc6 xeb x3f x5b xa4 xcd xa4)) O
(C x36 (Some (W x30 xc1 xeb x3f x5b xa1 xcd xa4)) O
(C x37 (Some (W xe3 xc2 xeb x3f x5b xa2 xcd xa4)) O
(C x38 (Some (W xfa xd8 xeb x3f x5b xaf xcd xa4)) O
(C x39 (Some (W xad xda xeb x3f x5b xb0 xcd xa4)) O
O))))))))))
(C x32 (Some (W x73 xc0 xd6 x61 xf7 xde xb5 x83)) (C x30 (Some (W xd9 xb1 xe8 x3f x5b x21 xca xa4)) O
(C x31 (Some (W x26 xb0 xe8 x3f x5b x20 xca xa4)) O
(C x32 (Some (W x73 xae xe8 x3f x5b x1f xca xa4)) O
(C x33 (Some (W xc0 xac xe8 x3f x5b x1e xca xa4)) O
(C x34 (Some (W xa5 xb8 xe8 x3f x5b x25 xca xa4)) O
(C x35 (Some (W xf2 xb6 xe8 x3f x5b x24 xca xa4)) O
(C x36 (Some (W x3f xb5 xe8 x3f x5b x23 xca xa4)) O
(C x37 (Some (W x8c xb3 xe8 x3f x5b x22 xca xa4)) O
(C x38 (Some (W x71 xbf xe8 x3f x5b x29 xca xa4)) O
(C x39 (Some (W xbe xbd xe8 x3f x5b x28 xca xa4)) O
O))))))))))
(C x33 (Some (W xc0 xbe xd6 x61 xf7 xdd xb5 x83)) (C x30 (Some (W xd0 x71 xe6 x3f x5b x1b xc7 xa4)) O
(C x31 (Some (W x83 x73 xe6 x3f x5b x1c xc7 xa4)) O
(C x32 (Some (W x36 x75 xe6 x3f x5b x1d xc7 xa4)) O
(C x33 (Some (W xe9 x76 xe6 x3f x5b x1e xc7 xa4)) O
(C x34 (Some (W x9c x78 xe6 x3f x5b x1f xc7 xa4)) O
(C x35 (Some (W x4f x7a xe6 x3f x5b x20 xc7 xa4)) O
(C x36 (Some (W x02 x7c xe6 x3f x5b x21 xc7 xa4)) O
(C x37 (Some (W xb5 x7d xe6 x3f x5b x22 xc7 xa4)) O
(C x38 (Some (W x68 x7f xe6 x3f x5b x23 xc7 xa4)) O
(C x39 (Some (W x1b x81 xe6 x3f x5b x24 xc7 xa4)) O
O))))))))))
(C x34 (Some (W xa5 xca xd6 x61 xf7 xe4 xb5 x83)) (C x30 (Some (W x2f x3b xfa x3f x5b xa5 xde xa4)) O
(C x31 (Some (W x7c x39 xfa x3f x5b xa4 xde xa4)) O
(C x32 (Some (W x95 x3e xfa x3f x5b xa7 xde xa4)) O
(C x33 (Some (W xe2 x3c xfa x3f x5b xa6 xde xa4)) O
(C x34 (Some (W x63 x34 xfa x3f x5b xa1 xde xa4)) O
(C x35 (Some (W xb0 x32 xfa x3f x5b xa0 xde xa4)) O
(C x36 (Some (W xc9 x37 xfa x3f x5b xa3 xde xa4)) O
(C x37 (Some (W x16 x36 xfa x3f x5b xa2 xde xa4)) O
(C x38 (Some (W xc7 x48 xfa x3f x5b xad xde xa4)) O
(C x39 (Some (W x14 x47 xfa x3f x5b xac xde xa4)) O
O))))))))))
(C x35 (Some (W xf2 xc8 xd6 x61 xf7 xe3 xb5 x83)) O
(C x36 (Some (W x3f xc7 xd6 x61 xf7 xe2 xb5 x83)) O
(C x37 (Some (W x8c xc5 xd6 x61 xf7 xe1 xb5 x83)) O
(C x38 (Some (W x71 xd1 xd6 x61 xf7 xe8 xb5 x83)) O
(C x39 (Some (W xbe xcf xd6 x61 xf7 xe7 xb5 x83)) O
O))))))))))
(C x32 None (C x30 (Some (W x62 xdd xd9 x61 xf7 x66 xb9 x83)) O
(C x31 (Some (W x15 xdf xd9 x61 xf7 x67 xb9 x83)) O
(C x32 (Some (W xfc xd9 xd9 x61 xf7 x64 xb9 x83)) O
(C x33 (Some (W xaf xdb xd9 x61 xf7 x65 xb9 x83)) O
(C x34 (Some (W x96 xd6 xd9 x61 xf7 x62 xb9 x83)) O
(C x35 (Some (W x49 xd8 xd9 x61 xf7 x63 xb9 x83)) O
(C x36 (Some (W x30 xd3 xd9 x61 xf7 x60 xb9 x83)) O
(C x37 (Some (W xe3 xd4 xd9 x61 xf7 x61 xb9 x83)) O
(C x38 (Some (W xfa xea xd9 x61 xf7 x6e xb9 x83)) O
(C x39 (Some (W xad xec xd9 x61 xf7 x6f xb9 x83)) O
O))))))))))
(C x33 None (C x30 (Some (W xeb xf6 xdc x61 xf7 xec xbc x83)) O
(C x31 (Some (W x38 xf5 xdc x61 xf7 xeb xbc x83)) O
(C x32 (Some (W x51 xfa xdc x61 xf7 xee xbc x83)) O
(C x33 (Some (W x9e xf8 xdc x61 xf7 xed xbc x83)) O
(C x34 (Some (W xb7 xfd xdc x61 xf7 xf0 xbc x83)) O
(C x35 (Some (W x04 xfc xdc x61 xf7 xef xbc x83)) O
(C x36 (Some (W x1d x01 xdd x61 xf7 xf2 xbc x83)) O
(C x37 (Some (W x6a xff xdc x61 xf7 xf1 xbc x83)) O
(C x38 (Some (W x53 xe9 xdc x61 xf7 xe4 xbc x83)) O
(C x39 (Some (W xa0 xe7 xdc x61 xf7 xe3 xbc x83)) O
O))))))))))
(C x34 None (C x30 (Some (W x74 x10 xe0 x61 xf7 x72 xc0 x83)) O
(C x31 (Some (W x27 x12 xe0 x61 xf7 x73 xc0 x83)) O
(C x32 (Some (W xda x13 xe0 x61 xf7 x74 xc0 x83)) O
(C x33 (Some (W x8d x15 xe0 x61 xf7 x75 xc0 x83)) O
(C x34 (Some (W xa8 x09 xe0 x61 xf7 x6e xc0 x83)) O
(C x35 (Some (W x5b x0b xe0 x61 xf7 x6f xc0 x83)) O
(C x36 (Some (W x0e x0d xe0 x61 xf7 x70 xc0 x83)) O
(C x37 (Some (W xc1 x0e xe0 x61 xf7 x71 xc0 x83)) O
(C x38 (Some (W xdc x02 xe0 x61 xf7 x6a xc0 x83)) O
(C x39 (Some (W x8f x04 xe0 x61 xf7 x6b xc0 x83)) O
O))))))))))
(C x35 None (C x30 (Some (W x7d x50 xe2 x61 xf7 x78 xc3 x83)) O
(C x31 (Some (W xca x4e xe2 x61 xf7 x77 xc3 x83)) O
(C x32 (Some (W x17 x4d xe2 x61 xf7 x76 xc3 x83)) O
(C x33 (Some (W x64 x4b xe2 x61 xf7 x75 xc3 x83)) O
(C x34 (Some (W xb1 x49 xe2 x61 xf7 x74 xc3 x83)) O
(C x35 (Some (W xfe x47 xe2 x61 xf7 x73 xc3 x83)) O
(C x36 (Some (W x4b x46 xe2 x61 xf7 x72 xc3 x83)) O
(C x37 (Some (W x98 x44 xe2 x61 xf7 x71 xc3 x83)) O
(C x38 (Some (W xe5 x42 xe2 x61 xf7 x70 xc3 x83)) O
(C x39 (Some (W x32 x41 xe2 x61 xf7 x6f xc3 x83)) O
O))))))))))
(C x36 None (C x30 (Some (W xa6 x33 xe5 x61 xf7 xde xc6 x83)) O
(C x31 (Some (W x59 x35 xe5 x61 xf7 xdf xc6 x83)) O
(C x32 (Some (W x40 x30 xe5 x61 xf7 xdc xc6 x83)) O
(C x33 (Some (W xf3 x31 xe5 x61 xf7 xdd xc6 x83)) O
(C x34 (Some (W x72 x3a xe5 x61 xf7 xe2 xc6 x83)) O
(C x35 (Some (W x25 x3c xe5 x61 xf7 xe3 xc6 x83)) O
(C x36 (Some (W x0c x37 xe5 x61 xf7 xe0 xc6 x83)) O
(C x37 (Some (W xbf x38 xe5 x61 xf7 xe1 xc6 x83)) O
(C x38 (Some (W x3e x41 xe5 x61 xf7 xe6 xc6 x83)) O
(C x39 (Some (W xf1 x42 xe5 x61 xf7 xe7 xc6 x83)) O
O))))))))))
(C x37 None (C x30 (Some (W x2f x4d xe8 x61 xf7 x64 xca x83)) O
(C x31 (Some (W x7c x4b xe8 x61 xf7 x63 xca x83)) O
(C x32 (Some (W x95 x50 xe8 x61 xf7 x66 xca x83)) O
(C x33 (Some (W xe2 x4e xe8 x61 xf7 x65 xca x83)) O
(C x34 (Some (W x63 x46 xe8 x61 xf7 x60 xca x83)) O
(C x35 (Some (W xb0 x44 xe8 x61 xf7 x5f xca x83)) O
(C x36 (Some (W xc9 x49 xe8 x61 xf7 x62 xca x83)) O
(C x37 (Some (W x16 x48 xe8 x61 xf7 x61 xca x83)) O
(C x38 (Some (W xc7 x5a xe8 x61 xf7 x6c xca x83)) O
(C x39 (Some (W x14 x59 xe8 x61 xf7 x6b xca x83)) O
O))))))))))
(C x38 None (C x30 (Some (W xb8 x66 xeb x61 xf7 xea xcd x83)) O
(C x31 (Some (W x6b x68 xeb x61 xf7 xeb xcd x83)) O
(C x32 (Some (W x1e x6a xeb x61 xf7 xec xcd x83)) O
(C x33 (Some (W xd1 x6b xeb x61 xf7 xed xcd x83)) O
(C x34 (Some (W x84 x6d xeb x61 xf7 xee xcd x83)) O
(C x35 (Some (W x37 x6f xeb x61 xf7 xef xcd x83)) O
(C x36 (Some (W xea x70 xeb x61 xf7 xf0 xcd x83)) O
(C x37 (Some (W x9d x72 xeb x61 xf7 xf1 xcd x83)) O
(C x38 (Some (W x20 x59 xeb x61 xf7 xe2 xcd x83)) O
(C x39 (Some (W xd3 x5a xeb x61 xf7 xe3 xcd x83)) O
O))))))))))
(C x39 None (C x30 (Some (W x41 x80 xee x61 xf7 x70 xd1 x83)) O
(C x31 (Some (W x8e x7e xee x61 xf7 x6f xd1 x83)) O
(C x32 (Some (W xdb x7c xee x61 xf7 x6e xd1 x83)) O
(C x33 (Some (W x28 x7b xee x61 xf7 x6d xd1 x83)) O
(C x34 (Some (W x0d x87 xee x61 xf7 x74 xd1 x83)) O
(C x35 (Some (W x5a x85 xee x61 xf7 x73 xd1 x83)) O
(C x36 (Some (W xa7 x83 xee x61 xf7 x72 xd1 x83)) O
(C x37 (Some (W xf4 x81 xee x61 xf7 x71 xd1 x83)) O
(C x38 (Some (W xa9 x72 xee x61 xf7 x68 xd1 x83)) O
(C x39 (Some (W xf6 x70 xee x61 xf7 x67 xd1 x83)) O
O))))))))))
O))))))))))
O)
O)
(C x6e None (C x6f None (C x5f None (C x30 None (C x30 (Some (W x32 xdb xac x28 xbf xd3 x59 x6a)) O
(C x31 (Some (W xe5 xdc xac x28 xbf xd4 x59 x6a)) O
(C x32 (Some (W xcc xd7 xac x28 xbf xd1 x59 x6a)) O
(C x33 (Some (W x7f xd9 xac x28 xbf xd2 x59 x6a)) O
(C x34 (Some (W x66 xd4 xac x28 xbf xcf x59 x6a)) O
(C x35 (Some (W x19 xd6 xac x28 xbf xd0 x59 x6a)) O
(C x36 (Some (W x00 xd1 xac x28 xbf xcd x59 x6a)) O
(C x37 (Some (W xb3 xd2 xac x28 xbf xce x59 x6a)) O
(C x38 (Some (W xca xe8 xac x28 xbf xdb x59 x6a)) O
(C x39 (Some (W x7d xea xac x28 xbf xdc x59 x6a)) O
O))))))))))
(C x31 None (C x30 (Some (W xbb xf4 xaf x28 xbf x59 x5d x6a)) (C x30 (Some (W x31 x88 xfc x22 xd2 x0a x94 x6c)) O
(C x31 (Some (W x7e x86 xfc x22 xd2 x09 x94 x6c)) O
(C x32 (Some (W xcb x84 xfc x22 xd2 x08 x94 x6c)) O
(C x33 (Some (W x18 x83 xfc x22 xd2 x07 x94 x6c)) O
(C x34 (Some (W xfd x8e xfc x22 xd2 x0e x94 x6c)) O
(C x35 (Some (W x4a x8d xfc x22 xd2 x0d x94 x6c)) O
(C x36 (Some (W x97 x8b xfc x22 xd2 x0c x94 x6c)) O
(C x37 (Some (W xe4 x89 xfc x22 xd2 x0b x94 x6c)) O
(C x38 (Some (W x99 x7a xfc x22 xd2 x02 x94 x6c)) O
(C x39 (Some (W xe6 x78 xfc x22 xd2 x01 x94 x6c)) O
O))))))))))
(C x31 (Some (W x08 xf3 xaf x28 xbf x58 x5d x6a)) (C x30 (Some (W x28 x48 xfa x22 xd2 x04 x91 x6c)) O
(C x31 (Some (W xdb x49 xfa x22 xd2 x05 x91 x6c)) O
(C x32 (Some (W x8e x4b xfa x22 xd2 x06 x91 x6c)) O
(C x33 (Some (W x41 x4d xfa x22 xd2 x07 x91 x6c)) O
(C x34 (Some (W xf4 x4e xfa x22 xd2 x08 x91 x6c)) O
(C x35 (Some (W xa7 x50 xfa x22 xd2 x09 x91 x6c)) O
(C x36 (Some (W x5a x52 xfa x22 xd2 x0a x91 x6c)) O
(C x37 (Some (W x0d x54 xfa x22 xd2 x0b x91 x6c)) O
(C x38 (Some (W x90 x3a xfa x22 xd2 xfc x90 x6c)) O
(C x39 (Some (W x43 x3c xfa x22 xd2 xfd x90 x6c)) O
O))))))))))
(C x32 (Some (W x21 xf8 xaf x28 xbf x5b x5d x6a)) (C x30 (Some (W xe3 x84 x02 x23 xd2 xf6 x9a x6c)) O
(C x31 (Some (W x30 x83 x02 x23 xd2 xf5 x9a x6c)) O
(C x32 (Some (W x49 x88 x02 x23 xd2 xf8 x9a x6c)) O
(C x33 (Some (W x96 x86 x02 x23 xd2 xf7 x9a x6c)) O
(C x34 (Some (W xaf x8b x02 x23 xd2 xfa x9a x6c)) O
(C x35 (Some (W xfc x89 x02 x23 xd2 xf9 x9a x6c)) O
(C x36 (Some (W x15 x8f x02 x23 xd2 xfc x9a x6c)) O
(C x37 (Some (W x62 x8d x02 x23 xd2 xfb x9a x6c)) O
(C x38 (Some (W x7b x92 x02 x23 xd2 xfe x9a x6c)) O
(C x39 (Some (W xc8 x90 x02 x23 xd2 xfd x9a x6c)) O
O))))))))))
(C x33 (Some (W x6e xf6 xaf x28 xbf x5a x5d x6a)) (C x30 (Some (W xba xa1 xff x22 xd2 x90 x97 x6c)) O
(C x31 (Some (W x6d xa3 xff x22 xd2 x91 x97 x6c)) O
(C x32 (Some (W x54 x9e xff x22 xd2 x8e x97 x6c)) O
(C x33 (Some (W x07 xa0 xff x22 xd2 x8f x97 x6c)) O
(C x34 (Some (W xee x9a xff x22 xd2 x8c x97 x6c)) O
(C x35 (Some (W xa1 x9c xff x22 xd2 x8d x97 x6c)) O
(C x36 (Some (W x88 x97 xff x22 xd2 x8a x97 x6c)) O
(C x37 (Some (W x3b x99 xff x22 xd2 x8b x97 x6c)) O
(C x38 (Some (W x22 x94 xff x22 xd2 x88 x97 x6c)) O
(C x39 (Some (W xd5 x95 xff x22 xd2 x89 x97 x6c)) O
O))))))))))
(C x34 (Some (W x87 xfb xaf x28 xbf x5d x5d x6a)) (C x30 (Some (W xf5 xb7 x08 x23 xd2 x02 xa2 x6c)) O
(C x31 (Some (W x42 xb6 x08 x23 xd2 x01 xa2 x6c)) O
(C x32 (Some (W x8f xb4 x08 x23 xd2 x00 xa2 x6c)) O
(C x33 (Some (W xdc xb2 x08 x23 xd2 xff xa1 x6c)) O
(C x34 (Some (W x29 xb1 x08 x23 xd2 xfe xa1 x6c)) O
(C x35 (Some (W x76 xaf x08 x23 xd2 xfd xa1 x6c)) O
(C x36 (Some (W xc3 xad x08 x23 xd2 xfc xa1 x6c)) O
(C x37 (Some (W x10 xac x08 x23 xd2 xfb xa1 x6c)) O
(C x38 (Some (W x8d xc5 x08 x23 xd2 x0a xa2 x6c)) O
(C x39 (Some (W xda xc3 x08 x23 xd2 x09 xa2 x6c)) O
O))))))))))
(C x35 (Some (W xd4 xf9 xaf x28 xbf x5c x5d x6a)) O
(C x36 (Some (W xed xfe xaf x28 xbf x5f x5d x6a)) O
(C x37 (Some (W x3a xfd xaf x28 xbf x5e x5d x6a)) O
(C x38 (Some (W x23 xe7 xaf x28 xbf x51 x5d x6a)) O
(C x39 (Some (W x70 xe5 xaf x28 xbf x50 x5d x6a)) O
O))))))))))
(C x32 None (C x30 (Some (W xa0 x81 xa7 x28 xbf x47 x53 x6a)) O
(C x31 (Some (W x53 x83 xa7 x28 xbf x48 x53 x6a)) O
(C x32 (Some (W x06 x85 xa7 x28 xbf x49 x53 x6a)) O
(C x33 (Some (W xb9 x86 xa7 x28 xbf x4a x53 x6a)) O
(C x34 (Some (W x6c x88 xa7 x28 xbf x4b x53 x6a)) O
(C x35 (Some (W x1f x8a xa7 x28 xbf x4c x53 x6a)) O
(C x36 (Some (W xd2 x8b xa7 x28 xbf x4d x53 x6a)) O
(C x37 (Some (W x85 x8d xa7 x28 xbf x4e x53 x6a)) O
(C x38 (Some (W x38 x8f xa7 x28 xbf x4f x53 x6a)) O
(C x39 (Some (W xeb x90 xa7 x28 xbf x50 x53 x6a)) O
O))))))))))
(C x33 None (C x30 (Some (W x29 x9b xaa x28 xbf xcd x56 x6a)) O
(C x31 (Some (W x76 x99 xaa x28 xbf xcc x56 x6a)) O
(C x32 (Some (W xc3 x97 xaa x28 xbf xcb x56 x6a)) O
(C x33 (Some (W x10 x96 xaa x28 xbf xca x56 x6a)) O
(C x34 (Some (W xf5 xa1 xaa x28 xbf xd1 x56 x6a)) O
(C x35 (Some (W x42 xa0 xaa x28 xbf xd0 x56 x6a)) O
(C x36 (Some (W x8f x9e xaa x28 xbf xcf x56 x6a)) O
(C x37 (Some (W xdc x9c xaa x28 xbf xce x56 x6a)) O
(C x38 (Some (W xc1 xa8 xaa x28 xbf xd5 x56 x6a)) O
(C x39 (Some (W x0e xa7 xaa x28 xbf xd4 x56 x6a)) O
O))))))))))
(C x34 None (C x30 (Some (W xf6 x0a xb9 x28 xbf xcb x67 x6a)) O
(C x31 (Some (W xa9 x0c xb9 x28 xbf xcc x67 x6a)) O
(C x32 (Some (W x90 x07 xb9 x28 xbf xc9 x67 x6a)) O
(C x33 (Some (W x43 x09 xb9 x28 xbf xca x67 x6a)) O
(C x34 (Some (W xc2 x11 xb9 x28 xbf xcf x67 x6a)) O
(C x35 (Some (W x75 x13 xb9 x28 xbf xd0 x67 x6a)) O
(C x36 (Some (W x5c x0e xb9 x28 xbf xcd x67 x6a)) O
(C x37 (Some (W x0f x10 xb9 x28 xbf xce x67 x6a)) O
(C x38 (Some (W x8e x18 xb9 x28 xbf xd3 x67 x6a)) O
(C x39 (Some (W x41 x1a xb9 x28 xbf xd4 x67 x6a)) O
O))))))))))
(C x35 None (C x30 (Some (W xff x4a xbb x28 xbf xd1 x6a x6a)) O
(C x31 (Some (W x4c x49 xbb x28 xbf xd0 x6a x6a)) O
(C x32 (Some (W x65 x4e xbb x28 xbf xd3 x6a x6a)) O
(C x33 (Some (W xb2 x4c xbb x28 xbf xd2 x6a x6a)) O
(C x34 (Some (W x33 x44 xbb x28 xbf xcd x6a x6a)) O
(C x35 (Some (W x80 x42 xbb x28 xbf xcc x6a x6a)) O
(C x36 (Some (W x99 x47 xbb x28 xbf xcf x6a x6a)) O
(C x37 (Some (W xe6 x45 xbb x28 xbf xce x6a x6a)) O
(C x38 (Some (W x97 x58 xbb x28 xbf xd9 x6a x6a)) O
(C x39 (Some (W xe4 x56 xbb x28 xbf xd8 x6a x6a)) O
O))))))))))
(C x36 None (C x30 (Some (W x44 x0e xb3 x28 xbf xdf x60 x6a)) O
(C x31 (Some (W xf7 x0f xb3 x28 xbf xe0 x60 x6a)) O
(C x32 (Some (W xaa x11 xb3 x28 xbf xe1 x60 x6a)) O
(C x33 (Some (W x5d x13 xb3 x28 xbf xe2 x60 x6a)) O
(C x34 (Some (W x78 x07 xb3 x28 xbf xdb x60 x6a)) O
(C x35 (Some (W x2b x09 xb3 x28 xbf xdc x60 x6a)) O
(C x36 (Some (W xde x0a xb3 x28 xbf xdd x60 x6a)) O
(C x37 (Some (W x91 x0c xb3 x28 xbf xde x60 x6a)) O
(C x38 (Some (W xac x00 xb3 x28 xbf xd7 x60 x6a)) O
(C x39 (Some (W x5f x02 xb3 x28 xbf xd8 x60 x6a)) O
O))))))))))
(C x37 None (C x30 (Some (W xcd x27 xb6 x28 xbf x65 x64 x6a)) O
(C x31 (Some (W x1a x26 xb6 x28 xbf x64 x64 x6a)) O
(C x32 (Some (W x67 x24 xb6 x28 xbf x63 x64 x6a)) O
(C x33 (Some (W xb4 x22 xb6 x28 xbf x62 x64 x6a)) O
(C x34 (Some (W x01 x21 xb6 x28 xbf x61 x64 x6a)) O
(C x35 (Some (W x4e x1f xb6 x28 xbf x60 x64 x6a)) O
(C x36 (Some (W x9b x1d xb6 x28 xbf x5f x64 x6a)) O
(C x37 (Some (W xe8 x1b xb6 x28 xbf x5e x64 x6a)) O
(C x38 (Some (W x35 x1a xb6 x28 xbf x5d x64 x6a)) O
(C x39 (Some (W x82 x18 xb6 x28 xbf x5c x64 x6a)) O
O))))))))))
(C x38 None (C x30 (Some (W x9a x97 xc4 x28 xbf x63 x75 x6a)) O
(C x31 (Some (W x4d x99 xc4 x28 xbf x64 x75 x6a)) O
(C x32 (Some (W x34 x94 xc4 x28 xbf x61 x75 x6a)) O
(C x33 (Some (W xe7 x95 xc4 x28 xbf x62 x75 x6a)) O
(C x34 (Some (W xce x90 xc4 x28 xbf x5f x75 x6a)) O
(C x35 (Some (W x81 x92 xc4 x28 xbf x60 x75 x6a)) O
(C x36 (Some (W x68 x8d xc4 x28 xbf x5d x75 x6a)) O
(C x37 (Some (W x1b x8f xc4 x28 xbf x5e x75 x6a)) O
(C x38 (Some (W x02 x8a xc4 x28 xbf x5b x75 x6a)) O
(C x39 (Some (W xb5 x8b xc4 x28 xbf x5c x75 x6a)) O
O))))))))))
(C x39 None (C x30 (Some (W xc3 x7a xc7 x28 xbf xc9 x78 x6a)) O
(C x31 (Some (W x10 x79 xc7 x28 xbf xc8 x78 x6a)) O
(C x32 (Some (W x29 x7e xc7 x28 xbf xcb x78 x6a)) O
(C x33 (Some (W x76 x7c xc7 x28 xbf xca x78 x6a)) O
(C x34 (Some (W x8f x81 xc7 x28 xbf xcd x78 x6a)) O
(C x35 (Some (W xdc x7f xc7 x28 xbf xcc x78 x6a)) O
(C x36 (Some (W xf5 x84 xc7 x28 xbf xcf x78 x6a)) O
(C x37 (Some (W x42 x83 xc7 x28 xbf xce x78 x6a)) O
(C x38 (Some (W x5b x88 xc7 x28 xbf xd1 x78 x6a)) O
(C x39 (Some (W xa8 x86 xc7 x28 xbf xd0 x78 x6a)) O
O))))))))))
O))))))))))
O)
O)
(C x72 None (C x61 None (C x5f None (C x30 None (C x30 (Some (W xec x3f x45 xdc x00 xd8 x55 x2f)) O
(C x31 (Some (W x9f x41 x45 xdc x00 xd9 x55 x2f)) O
(C x32 (Some (W x52 x43 x45 xdc x00 xda x55 x2f)) O
(C x33 (Some (W x05 x45 x45 xdc x00 xdb x55 x2f)) O
(C x34 (Some (W x20 x39 x45 xdc x00 xd4 x55 x2f)) O
(C x35 (Some (W xd3 x3a x45 xdc x00 xd5 x55 x2f)) O
(C x36 (Some (W x86 x3c x45 xdc x00 xd6 x55 x2f)) O
(C x37 (Some (W x39 x3e x45 xdc x00 xd7 x55 x2f)) O
(C x38 (Some (W x84 x4d x45 xdc x00 xe0 x55 x2f)) O
(C x39 (Some (W x37 x4f x45 xdc x00 xe1 x55 x2f)) O
O))))))))))
(C x31 None (C x30 (Some (W x75 x59 x48 xdc x00 x5e x59 x2f)) (C x30 (Some (W x3f xb0 xef x4e x76 x00 x34 xbd)) O
(C x31 (Some (W x8c xae xef x4e x76 xff x33 xbd)) O
(C x32 (Some (W xa5 xb3 xef x4e x76 x02 x34 xbd)) O
(C x33 (Some (W xf2 xb1 xef x4e x76 x01 x34 xbd)) O
(C x34 (Some (W x73 xa9 xef x4e x76 xfc x33 xbd)) O
(C x35 (Some (W xc0 xa7 xef x4e x76 xfb x33 xbd)) O
(C x36 (Some (W xd9 xac xef x4e x76 xfe x33 xbd)) O
(C x37 (Some (W x26 xab xef x4e x76 xfd x33 xbd)) O
(C x38 (Some (W xd7 xbd xef x4e x76 x08 x34 xbd)) O
(C x39 (Some (W x24 xbc xef x4e x76 x07 x34 xbd)) O
O))))))))))
(C x31 (Some (W xc2 x57 x48 xdc x00 x5d x59 x2f)) (C x30 (Some (W x36 x70 xed x4e x76 xfa x30 xbd)) O
(C x31 (Some (W xe9 x71 xed x4e x76 xfb x30 xbd)) O
(C x32 (Some (W xd0 x6c xed x4e x76 xf8 x30 xbd)) O
(C x33 (Some (W x83 x6e xed x4e x76 xf9 x30 xbd)) O
(C x34 (Some (W x02 x77 xed x4e x76 xfe x30 xbd)) O
(C x35 (Some (W xb5 x78 xed x4e x76 xff x30 xbd)) O
(C x36 (Some (W x9c x73 xed x4e x76 xfc x30 xbd)) O
(C x37 (Some (W x4f x75 xed x4e x76 xfd x30 xbd)) O
(C x38 (Some (W xce x7d xed x4e x76 x02 x31 xbd)) O
(C x39 (Some (W x81 x7f xed x4e x76 x03 x31 xbd)) O
O))))))))))
(C x32 (Some (W x0f x56 x48 xdc x00 x5c x59 x2f)) (C x30 (Some (W x0d x8d xea x4e x76 x94 x2d xbd)) O
(C x31 (Some (W x5a x8b xea x4e x76 x93 x2d xbd)) O
(C x32 (Some (W xa7 x89 xea x4e x76 x92 x2d xbd)) O
(C x33 (Some (W xf4 x87 xea x4e x76 x91 x2d xbd)) O
(C x34 (Some (W x41 x86 xea x4e x76 x90 x2d xbd)) O
(C x35 (Some (W x8e x84 xea x4e x76 x8f x2d xbd)) O
(C x36 (Some (W xdb x82 xea x4e x76 x8e x2d xbd)) O
(C x37 (Some (W x28 x81 xea x4e x76 x8d x2d xbd)) O
(C x38 (Some (W x75 x7f xea x4e x76 x8c x2d xbd)) O
(C x39 (Some (W xc2 x7d xea x4e x76 x8b x2d xbd)) O
O))))))))))
(C x33 (Some (W x5c x54 x48 xdc x00 x5b x59 x2f)) (C x30 (Some (W x84 x73 xe7 x4e x76 x0e x2a xbd)) O
(C x31 (Some (W x37 x75 xe7 x4e x76 x0f x2a xbd)) O
(C x32 (Some (W xea x76 xe7 x4e x76 x10 x2a xbd)) O
(C x33 (Some (W x9d x78 xe7 x4e x76 x11 x2a xbd)) O
(C x34 (Some (W xb8 x6c xe7 x4e x76 x0a x2a xbd)) O
(C x35 (Some (W x6b x6e xe7 x4e x76 x0b x2a xbd)) O
(C x36 (Some (W x1e x70 xe7 x4e x76 x0c x2a xbd)) O
(C x37 (Some (W xd1 x71 xe7 x4e x76 x0d x2a xbd)) O
(C x38 (Some (W xec x65 xe7 x4e x76 x06 x2a xbd)) O
(C x39 (Some (W x9f x67 xe7 x4e x76 x07 x2a xbd)) O
O))))))))))
(C x34 (Some (W xa9 x52 x48 xdc x00 x5a x59 x2f)) (C x30 (Some (W xfb x59 xe4 x4e x76 x88 x26 xbd)) O
(C x31 (Some (W x48 x58 xe4 x4e x76 x87 x26 xbd)) O
(C x32 (Some (W x61 x5d xe4 x4e x76 x8a x26 xbd)) O
(C x33 (Some (W xae x5b xe4 x4e x76 x89 x26 xbd)) O
(C x34 (Some (W xc7 x60 xe4 x4e x76 x8c x26 xbd)) O
(C x35 (Some (W x14 x5f xe4 x4e x76 x8b x26 xbd)) O
(C x36 (Some (W x2d x64 xe4 x4e x76 x8e x26 xbd)) O
(C x37 (Some (W x7a x62 xe4 x4e x76 x8d x26 xbd)) O
(C x38 (Some (W x63 x4c xe4 x4e x76 x80 x26 xbd)) O
(C x39 (Some (W xb0 x4a xe4 x4e x76 x7f x26 xbd)) O
O))))))))))
(C x35 (Some (W xf6 x50 x48 xdc x00 x59 x59 x2f)) O
(C x36 (Some (W x43 x4f x48 xdc x00 x58 x59 x2f)) O
(C x37 (Some (W x90 x4d x48 xdc x00 x57 x59 x2f)) O
(C x38 (Some (W x0d x67 x48 xdc x00 x66 x59 x2f)) O
(C x39 (Some (W x5a x65 x48 xdc x00 x65 x59 x2f)) O
O))))))))))
(C x32 None (C x30 (Some (W x7e x99 x4a xdc x00 x64 x5c x2f)) O
(C x31 (Some (W x31 x9b x4a xdc x00 x65 x5c x2f)) O
(C x32 (Some (W x18 x96 x4a xdc x00 x62 x5c x2f)) O
(C x33 (Some (W xcb x97 x4a xdc x00 x63 x5c x2f)) O
(C x34 (Some (W x4a xa0 x4a xdc x00 x68 x5c x2f)) O
(C x35 (Some (W xfd xa1 x4a xdc x00 x69 x5c x2f)) O
(C x36 (Some (W xe4 x9c x4a xdc x00 x66 x5c x2f)) O
(C x37 (Some (W x97 x9e x4a xdc x00 x67 x5c x2f)) O
(C x38 (Some (W xe6 x8b x4a xdc x00 x5c x5c x2f)) O
(C x39 (Some (W x99 x8d x4a xdc x00 x5d x5c x2f)) O
O))))))))))
(C x33 None (C x30 (Some (W x07 xb3 x4d xdc x00 xea x5f x2f)) O
(C x31 (Some (W x54 xb1 x4d xdc x00 xe9 x5f x2f)) O
(C x32 (Some (W x6d xb6 x4d xdc x00 xec x5f x2f)) O
(C x33 (Some (W xba xb4 x4d xdc x00 xeb x5f x2f)) O
(C x34 (Some (W x3b xac x4d xdc x00 xe6 x5f x2f)) O
(C x35 (Some (W x88 xaa x4d xdc x00 xe5 x5f x2f)) O
(C x36 (Some (W xa1 xaf x4d xdc x00 xe8 x5f x2f)) O
(C x37 (Some (W xee xad x4d xdc x00 xe7 x5f x2f)) O
(C x38 (Some (W x6f xa5 x4d xdc x00 xe2 x5f x2f)) O
(C x39 (Some (W xbc xa3 x4d xdc x00 xe1 x5f x2f)) O
O))))))))))
(C x34 None (C x30 (Some (W xa8 xe9 x39 xdc x00 x60 x48 x2f)) O
(C x31 (Some (W x5b xeb x39 xdc x00 x61 x48 x2f)) O
(C x32 (Some (W x0e xed x39 xdc x00 x62 x48 x2f)) O
(C x33 (Some (W xc1 xee x39 xdc x00 x63 x48 x2f)) O
(C x34 (Some (W x74 xf0 x39 xdc x00 x64 x48 x2f)) O
(C x35 (Some (W x27 xf2 x39 xdc x00 x65 x48 x2f)) O
(C x36 (Some (W xda xf3 x39 xdc x00 x66 x48 x2f)) O
(C x37 (Some (W x8d xf5 x39 xdc x00 x67 x48 x2f)) O
(C x38 (Some (W x10 xdc x39 xdc x00 x58 x48 x2f)) O
(C x39 (Some (W xc3 xdd x39 xdc x00 x59 x48 x2f)) O
O))))))))))
(C x35 None (C x30 (Some (W xb1 x29 x3c xdc x00 x66 x4b x2f)) O
(C x31 (Some (W xfe x27 x3c xdc x00 x65 x4b x2f)) O
(C x32 (Some (W x4b x26 x3c xdc x00 x64 x4b x2f)) O
(C x33 (Some (W x98 x24 x3c xdc x00 x63 x4b x2f)) O
(C x34 (Some (W x7d x30 x3c xdc x00 x6a x4b x2f)) O
(C x35 (Some (W xca x2e x3c xdc x00 x69 x4b x2f)) O
(C x36 (Some (W x17 x2d x3c xdc x00 x68 x4b x2f)) O
(C x37 (Some (W x64 x2b x3c xdc x00 x67 x4b x2f)) O
(C x38 (Some (W x19 x1c x3c xdc x00 x5e x4b x2f)) O
(C x39 (Some (W x66 x1a x3c xdc x00 x5d x4b x2f)) O
O))))))))))
(C x36 None (C x30 (Some (W x3a x43 x3f xdc x00 xec x4e x2f)) O
(C x31 (Some (W xed x44 x3f xdc x00 xed x4e x2f)) O
(C x32 (Some (W xd4 x3f x3f xdc x00 xea x4e x2f)) O
(C x33 (Some (W x87 x41 x3f xdc x00 xeb x4e x2f)) O
(C x34 (Some (W x6e x3c x3f xdc x00 xe8 x4e x2f)) O
(C x35 (Some (W x21 x3e x3f xdc x00 xe9 x4e x2f)) O
(C x36 (Some (W x08 x39 x3f xdc x00 xe6 x4e x2f)) O
(C x37 (Some (W xbb x3a x3f xdc x00 xe7 x4e x2f)) O
(C x38 (Some (W xa2 x35 x3f xdc x00 xe4 x4e x2f)) O
(C x39 (Some (W x55 x37 x3f xdc x00 xe5 x4e x2f)) O
O))))))))))
(C x37 None (C x30 (Some (W x63 x26 x42 xdc x00 x52 x52 x2f)) O
(C x31 (Some (W xb0 x24 x42 xdc x00 x51 x52 x2f)) O
(C x32 (Some (W xc9 x29 x42 xdc x00 x54 x52 x2f)) O
(C x33 (Some (W x16 x28 x42 xdc x00 x53 x52 x2f)) O
(C x34 (Some (W x2f x2d x42 xdc x00 x56 x52 x2f)) O
(C x35 (Some (W x7c x2b x42 xdc x00 x55 x52 x2f)) O
(C x36 (Some (W x95 x30 x42 xdc x00 x58 x52 x2f)) O
(C x37 (Some (W xe2 x2e x42 xdc x00 x57 x52 x2f)) O
(C x38 (Some (W xfb x33 x42 xdc x00 x5a x52 x2f)) O
(C x39 (Some (W x48 x32 x42 xdc x00 x59 x52 x2f)) O
O))))))))))
(C x38 None (C x30 (Some (W xe4 xb9 x2d xdc x00 x68 x3a x2f)) O
(C x31 (Some (W x97 xbb x2d xdc x00 x69 x3a x2f)) O
(C x32 (Some (W x4a xbd x2d xdc x00 x6a x3a x2f)) O
(C x33 (Some (W xfd xbe x2d xdc x00 x6b x3a x2f)) O
(C x34 (Some (W x18 xb3 x2d xdc x00 x64 x3a x2f)) O
(C x35 (Some (W xcb xb4 x2d xdc x00 x65 x3a x2f)) O
(C x36 (Some (W x7e xb6 x2d xdc x00 x66 x3a x2f)) O
(C x37 (Some (W x31 xb8 x2d xdc x00 x67 x3a x2f)) O
(C x38 (Some (W x4c xac x2d xdc x00 x60 x3a x2f)) O
(C x39 (Some (W xff xad x2d xdc x00 x61 x3a x2f)) O
O))))))))))
(C x39 None (C x30 (Some (W x6d xd3 x30 xdc x00 xee x3d x2f)) O
(C x31 (Some (W xba xd1 x30 xdc x00 xed x3d x2f)) O
(C x32 (Some (W x07 xd0 x30 xdc x00 xec x3d x2f)) O
(C x33 (Some (W x54 xce x30 xdc x00 xeb x3d x2f)) O
(C x34 (Some (W xa1 xcc x30 xdc x00 xea x3d x2f)) O
(C x35 (Some (W xee xca x30 xdc x00 xe9 x3d x2f)) O
(C x36 (Some (W x3b xc9 x30 xdc x00 xe8 x3d x2f)) O
(C x37 (Some (W x88 xc7 x30 xdc x00 xe7 x3d x2f)) O
(C x38 (Some (W xd5 xc5 x30 xdc x00 xe6 x3d x2f)) O
(C x39 (Some (W x22 xc4 x30 xdc x00 xe5 x3d x2f)) O
O))))))))))
O))))))))))
O)
O)
O)))
O)
O)
O)
(C x6d None (C x61 None (C x73 None (C x5f None (C x65 None (C x78 None (C x5f None (C x30 None (C x30 (Some (W x3d x70 x71 x9a x26 xdf x08 x3e)) O
(C x31 (Some (W x8a x6e x71 x9a x26 xde x08 x3e)) O
(C x32 (Some (W xd7 x6c x71 x9a x26 xdd x08 x3e)) O
(C x33 (Some (W x24 x6b x71 x9a x26 xdc x08 x3e)) O
(C x34 (Some (W x71 x69 x71 x9a x26 xdb x08 x3e)) O
(C x35 (Some (W xbe x67 x71 x9a x26 xda x08 x3e)) O
(C x36 (Some (W x0b x66 x71 x9a x26 xd9 x08 x3e)) O
(C x37 (Some (W x58 x64 x71 x9a x26 xd8 x08 x3e)) O
(C x38 (Some (W xa5 x62 x71 x9a x26 xd7 x08 x3e)) O
(C x39 (Some (W xf2 x60 x71 x9a x26 xd6 x08 x3e)) O
O))))))))))
(C x31 None (C x30 (Some (W x34 x30 x6f x9a x26 xd9 x05 x3e)) (C x30 (Some (W xcc x96 xee x6a x98 x00 x20 xd3)) O
(C x31 (Some (W x7f x98 xee x6a x98 x01 x20 xd3)) O
(C x32 (Some (W x32 x9a xee x6a x98 x02 x20 xd3)) O
(C x33 (Some (W xe5 x9b xee x6a x98 x03 x20 xd3)) O
(C x34 (Some (W x00 x90 xee x6a x98 xfc x1f xd3)) O
(C x35 (Some (W xb3 x91 xee x6a x98 xfd x1f xd3)) O
(C x36 (Some (W x66 x93 xee x6a x98 xfe x1f xd3)) O
(C x37 (Some (W x19 x95 xee x6a x98 xff x1f xd3)) O
(C x38 (Some (W x64 xa4 xee x6a x98 x08 x20 xd3)) O
(C x39 (Some (W x17 xa6 xee x6a x98 x09 x20 xd3)) O
O))))))))))
(C x31 (Some (W xe7 x31 x6f x9a x26 xda x05 x3e)) (C x30 (Some (W x55 xb0 xf1 x6a x98 x86 x23 xd3)) O
(C x31 (Some (W xa2 xae xf1 x6a x98 x85 x23 xd3)) O
(C x32 (Some (W xef xac xf1 x6a x98 x84 x23 xd3)) O
(C x33 (Some (W x3c xab xf1 x6a x98 x83 x23 xd3)) O
(C x34 (Some (W x89 xa9 xf1 x6a x98 x82 x23 xd3)) O
(C x35 (Some (W xd6 xa7 xf1 x6a x98 x81 x23 xd3)) O
(C x36 (Some (W x23 xa6 xf1 x6a x98 x80 x23 xd3)) O
(C x37 (Some (W x70 xa4 xf1 x6a x98 x7f x23 xd3)) O
(C x38 (Some (W xed xbd xf1 x6a x98 x8e x23 xd3)) O
(C x39 (Some (W x3a xbc xf1 x6a x98 x8d x23 xd3)) O
O))))))))))
(C x32 (Some (W x9a x33 x6f x9a x26 xdb x05 x3e)) (C x30 (Some (W xde xc9 xf4 x6a x98 x0c x27 xd3)) O
(C x31 (Some (W x91 xcb xf4 x6a x98 x0d x27 xd3)) O
(C x32 (Some (W x78 xc6 xf4 x6a x98 x0a x27 xd3)) O
(C x33 (Some (W x2b xc8 xf4 x6a x98 x0b x27 xd3)) O
(C x34 (Some (W xaa xd0 xf4 x6a x98 x10 x27 xd3)) O
(C x35 (Some (W x5d xd2 xf4 x6a x98 x11 x27 xd3)) O
(C x36 (Some (W x44 xcd xf4 x6a x98 x0e x27 xd3)) O
(C x37 (Some (W xf7 xce xf4 x6a x98 x0f x27 xd3)) O
(C x38 (Some (W x46 xbc xf4 x6a x98 x04 x27 xd3)) O
(C x39 (Some (W xf9 xbd xf4 x6a x98 x05 x27 xd3)) O
O))))))))))
(C x33 (Some (W x4d x35 x6f x9a x26 xdc x05 x3e)) (C x30 (Some (W x67 xe3 xf7 x6a x98 x92 x2a xd3)) O
(C x31 (Some (W xb4 xe1 xf7 x6a x98 x91 x2a xd3)) O
(C x32 (Some (W xcd xe6 xf7 x6a x98 x94 x2a xd3)) O
(C x33 (Some (W x1a xe5 xf7 x6a x98 x93 x2a xd3)) O
(C x34 (Some (W x9b xdc xf7 x6a x98 x8e x2a xd3)) O
(C x35 (Some (W xe8 xda xf7 x6a x98 x8d x2a xd3)) O
(C x36 (Some (W x01 xe0 xf7 x6a x98 x90 x2a xd3)) O
(C x37 (Some (W x4e xde xf7 x6a x98 x8f x2a xd3)) O
(C x38 (Some (W xcf xd5 xf7 x6a x98 x8a x2a xd3)) O
(C x39 (Some (W x1c xd4 xf7 x6a x98 x89 x2a xd3)) O
O))))))))))
(C x34 (Some (W x68 x29 x6f x9a x26 xd5 x05 x3e)) (C x30 (Some (W x88 x40 xe3 x6a x98 x88 x12 xd3)) O
(C x31 (Some (W x3b x42 xe3 x6a x98 x89 x12 xd3)) O
(C x32 (Some (W xee x43 xe3 x6a x98 x8a x12 xd3)) O
(C x33 (Some (W xa1 x45 xe3 x6a x98 x8b x12 xd3)) O
(C x34 (Some (W x54 x47 xe3 x6a x98 x8c x12 xd3)) O
(C x35 (Some (W x07 x49 xe3 x6a x98 x8d x12 xd3)) O
(C x36 (Some (W xba x4a xe3 x6a x98 x8e x12 xd3)) O
(C x37 (Some (W x6d x4c xe3 x6a x98 x8f x12 xd3)) O
(C x38 (Some (W xf0 x32 xe3 x6a x98 x80 x12 xd3)) O
(C x39 (Some (W xa3 x34 xe3 x6a x98 x81 x12 xd3)) O
O))))))))))
(C x35 (Some (W x1b x2b x6f x9a x26 xd6 x05 x3e)) O
(C x36 (Some (W xce x2c x6f x9a x26 xd7 x05 x3e)) O
(C x37 (Some (W x81 x2e x6f x9a x26 xd8 x05 x3e)) O
(C x38 (Some (W x9c x22 x6f x9a x26 xd1 x05 x3e)) O
(C x39 (Some (W x4f x24 x6f x9a x26 xd2 x05 x3e)) O
O))))))))))
(C x32 None (C x30 (Some (W xef x6c x77 x9a x26 xcb x0f x3e)) O
(C x31 (Some (W x3c x6b x77 x9a x26 xca x0f x3e)) O
(C x32 (Some (W x55 x70 x77 x9a x26 xcd x0f x3e)) O
(C x33 (Some (W xa2 x6e x77 x9a x26 xcc x0f x3e)) O
(C x34 (Some (W x23 x66 x77 x9a x26 xc7 x0f x3e)) O
(C x35 (Some (W x70 x64 x77 x9a x26 xc6 x0f x3e)) O
(C x36 (Some (W x89 x69 x77 x9a x26 xc9 x0f x3e)) O
(C x37 (Some (W xd6 x67 x77 x9a x26 xc8 x0f x3e)) O
(C x38 (Some (W x87 x7a x77 x9a x26 xd3 x0f x3e)) O
(C x39 (Some (W xd4 x78 x77 x9a x26 xd2 x0f x3e)) O
O))))))))))
(C x33 None (C x30 (Some (W x66 x53 x74 x9a x26 x45 x0c x3e)) O
(C x31 (Some (W x19 x55 x74 x9a x26 x46 x0c x3e)) O
(C x32 (Some (W x00 x50 x74 x9a x26 x43 x0c x3e)) O
(C x33 (Some (W xb3 x51 x74 x9a x26 x44 x0c x3e)) O
(C x34 (Some (W x32 x5a x74 x9a x26 x49 x0c x3e)) O
(C x35 (Some (W xe5 x5b x74 x9a x26 x4a x0c x3e)) O
(C x36 (Some (W xcc x56 x74 x9a x26 x47 x0c x3e)) O
(C x37 (Some (W x7f x58 x74 x9a x26 x48 x0c x3e)) O
(C x38 (Some (W xfe x60 x74 x9a x26 x4d x0c x3e)) O
(C x39 (Some (W xb1 x62 x74 x9a x26 x4e x0c x3e)) O
O))))))))))
(C x34 None (C x30 (Some (W x99 xe3 x65 x9a x26 x47 xfb x3d)) O
(C x31 (Some (W xe6 xe1 x65 x9a x26 x46 xfb x3d)) O
(C x32 (Some (W x33 xe0 x65 x9a x26 x45 xfb x3d)) O
(C x33 (Some (W x80 xde x65 x9a x26 x44 xfb x3d)) O
(C x34 (Some (W x65 xea x65 x9a x26 x4b xfb x3d)) O
(C x35 (Some (W xb2 xe8 x65 x9a x26 x4a xfb x3d)) O
(C x36 (Some (W xff xe6 x65 x9a x26 x49 xfb x3d)) O
(C x37 (Some (W x4c xe5 x65 x9a x26 x48 xfb x3d)) O
(C x38 (Some (W x31 xf1 x65 x9a x26 x4f xfb x3d)) O
(C x39 (Some (W x7e xef x65 x9a x26 x4e xfb x3d)) O
O))))))))))
(C x35 None (C x30 (Some (W x90 xa3 x63 x9a x26 x41 xf8 x3d)) O
(C x31 (Some (W x43 xa5 x63 x9a x26 x42 xf8 x3d)) O
(C x32 (Some (W xf6 xa6 x63 x9a x26 x43 xf8 x3d)) O
(C x33 (Some (W xa9 xa8 x63 x9a x26 x44 xf8 x3d)) O
(C x34 (Some (W x5c xaa x63 x9a x26 x45 xf8 x3d)) O
(C x35 (Some (W x0f xac x63 x9a x26 x46 xf8 x3d)) O
(C x36 (Some (W xc2 xad x63 x9a x26 x47 xf8 x3d)) O
(C x37 (Some (W x75 xaf x63 x9a x26 x48 xf8 x3d)) O
(C x38 (Some (W x28 xb1 x63 x9a x26 x49 xf8 x3d)) O
(C x39 (Some (W xdb xb2 x63 x9a x26 x4a xf8 x3d)) O
O))))))))))
(C x36 None (C x30 (Some (W xab x16 x6c x9a x26 x53 x02 x3e)) O
(C x31 (Some (W xf8 x14 x6c x9a x26 x52 x02 x3e)) O
(C x32 (Some (W x11 x1a x6c x9a x26 x55 x02 x3e)) O
(C x33 (Some (W x5e x18 x6c x9a x26 x54 x02 x3e)) O
(C x34 (Some (W x77 x1d x6c x9a x26 x57 x02 x3e)) O
(C x35 (Some (W xc4 x1b x6c x9a x26 x56 x02 x3e)) O
(C x36 (Some (W xdd x20 x6c x9a x26 x59 x02 x3e)) O
(C x37 (Some (W x2a x1f x6c x9a x26 x58 x02 x3e)) O
(C x38 (Some (W x13 x09 x6c x9a x26 x4b x02 x3e)) O
(C x39 (Some (W x60 x07 x6c x9a x26 x4a x02 x3e)) O
O))))))))))
(C x37 None (C x30 (Some (W x22 xfd x68 x9a x26 xcd xfe x3d)) O
(C x31 (Some (W xd5 xfe x68 x9a x26 xce xfe x3d)) O
(C x32 (Some (W xbc xf9 x68 x9a x26 xcb xfe x3d)) O
(C x33 (Some (W x6f xfb x68 x9a x26 xcc xfe x3d)) O
(C x34 (Some (W x56 xf6 x68 x9a x26 xc9 xfe x3d)) O
(C x35 (Some (W x09 xf8 x68 x9a x26 xca xfe x3d)) O
(C x36 (Some (W xf0 xf2 x68 x9a x26 xc7 xfe x3d)) O
(C x37 (Some (W xa3 xf4 x68 x9a x26 xc8 xfe x3d)) O
(C x38 (Some (W xba x0a x69 x9a x26 xd5 xfe x3d)) O
(C x39 (Some (W x6d x0c x69 x9a x26 xd6 xfe x3d)) O
O))))))))))
(C x38 None (C x30 (Some (W x45 xf6 x88 x9a x26 x4f x24 x3e)) O
(C x31 (Some (W x92 xf4 x88 x9a x26 x4e x24 x3e)) O
(C x32 (Some (W xdf xf2 x88 x9a x26 x4d x24 x3e)) O
(C x33 (Some (W x2c xf1 x88 x9a x26 x4c x24 x3e)) O
(C x34 (Some (W x79 xef x88 x9a x26 x4b x24 x3e)) O
(C x35 (Some (W xc6 xed x88 x9a x26 x4a x24 x3e)) O
(C x36 (Some (W x13 xec x88 x9a x26 x49 x24 x3e)) O
(C x37 (Some (W x60 xea x88 x9a x26 x48 x24 x3e)) O
(C x38 (Some (W xdd x03 x89 x9a x26 x57 x24 x3e)) O
(C x39 (Some (W x2a x02 x89 x9a x26 x56 x24 x3e)) O
O))))))))))
(C x39 None (C x30 (Some (W xbc xdc x85 x9a x26 xc9 x20 x3e)) O
(C x31 (Some (W x6f xde x85 x9a x26 xca x20 x3e)) O
(C x32 (Some (W x22 xe0 x85 x9a x26 xcb x20 x3e)) O
(C x33 (Some (W xd5 xe1 x85 x9a x26 xcc x20 x3e)) O
(C x34 (Some (W xf0 xd5 x85 x9a x26 xc5 x20 x3e)) O
(C x35 (Some (W xa3 xd7 x85 x9a x26 xc6 x20 x3e)) O
(C x36 (Some (W x56 xd9 x85 x9a x26 xc7 x20 x3e)) O
(C x37 (Some (W x09 xdb x85 x9a x26 xc8 x20 x3e)) O
(C x38 (Some (W x54 xea x85 x9a x26 xd1 x20 x3e)) O
(C x39 (Some (W x07 xec x85 x9a x26 xd2 x20 x3e)) O
O))))))))))
O))))))))))
O)
O)
(C x6e None (C x6f None (C x5f None (C x30 None (C x30 (Some (W x77 xd5 x36 x97 x85 x2f x63 x5f)) O
(C x31 (Some (W xc4 xd3 x36 x97 x85 x2e x63 x5f)) O
(C x32 (Some (W xdd xd8 x36 x97 x85 x31 x63 x5f)) O
(C x33 (Some (W x2a xd7 x36 x97 x85 x30 x63 x5f)) O
(C x34 (Some (W xab xce x36 x97 x85 x2b x63 x5f)) O
(C x35 (Some (W xf8 xcc x36 x97 x85 x2a x63 x5f)) O
(C x36 (Some (W x11 xd2 x36 x97 x85 x2d x63 x5f)) O
(C x37 (Some (W x5e xd0 x36 x97 x85 x2c x63 x5f)) O
(C x38 (Some (W xdf xc7 x36 x97 x85 x27 x63 x5f)) O
(C x39 (Some (W x2c xc6 x36 x97 x85 x26 x63 x5f)) O
O))))))))))
(C x31 None (C x30 (Some (W xee xbb x33 x97 x85 xa9 x5f x5f)) (C x30 (Some (W x3a x3a xe8 xec xff xeb x48 x43)) O
(C x31 (Some (W xed x3b xe8 xec xff xec x48 x43)) O
(C x32 (Some (W xd4 x36 xe8 xec xff xe9 x48 x43)) O
(C x33 (Some (W x87 x38 xe8 xec xff xea x48 x43)) O
(C x34 (Some (W x6e x33 xe8 xec xff xe7 x48 x43)) O
(C x35 (Some (W x21 x35 xe8 xec xff xe8 x48 x43)) O
(C x36 (Some (W x08 x30 xe8 xec xff xe5 x48 x43)) O
(C x37 (Some (W xbb x31 xe8 xec xff xe6 x48 x43)) O
(C x38 (Some (W xa2 x2c xe8 xec xff xe3 x48 x43)) O
(C x39 (Some (W x55 x2e xe8 xec xff xe4 x48 x43)) O
O))))))))))
(C x31 (Some (W xa1 xbd x33 x97 x85 xaa x5f x5f)) (C x30 (Some (W x63 x1d xeb xec xff x51 x4c x43)) O
(C x31 (Some (W xb0 x1b xeb xec xff x50 x4c x43)) O
(C x32 (Some (W xc9 x20 xeb xec xff x53 x4c x43)) O
(C x33 (Some (W x16 x1f xeb xec xff x52 x4c x43)) O
(C x34 (Some (W x2f x24 xeb xec xff x55 x4c x43)) O
(C x35 (Some (W x7c x22 xeb xec xff x54 x4c x43)) O
(C x36 (Some (W x95 x27 xeb xec xff x57 x4c x43)) O
(C x37 (Some (W xe2 x25 xeb xec xff x56 x4c x43)) O
(C x38 (Some (W xfb x2a xeb xec xff x59 x4c x43)) O
(C x39 (Some (W x48 x29 xeb xec xff x58 x4c x43)) O
O))))))))))
(C x32 (Some (W x88 xb8 x33 x97 x85 xa7 x5f x5f)) (C x30 (Some (W xa8 xe0 xe2 xec xff x5f x42 x43)) O
(C x31 (Some (W x5b xe2 xe2 xec xff x60 x42 x43)) O
(C x32 (Some (W x0e xe4 xe2 xec xff x61 x42 x43)) O
(C x33 (Some (W xc1 xe5 xe2 xec xff x62 x42 x43)) O
(C x34 (Some (W x74 xe7 xe2 xec xff x63 x42 x43)) O
(C x35 (Some (W x27 xe9 xe2 xec xff x64 x42 x43)) O
(C x36 (Some (W xda xea xe2 xec xff x65 x42 x43)) O
(C x37 (Some (W x8d xec xe2 xec xff x66 x42 x43)) O
(C x38 (Some (W x10 xd3 xe2 xec xff x57 x42 x43)) O
(C x39 (Some (W xc3 xd4 xe2 xec xff x58 x42 x43)) O
O))))))))))
(C x33 (Some (W x3b xba x33 x97 x85 xa8 x5f x5f)) (C x30 (Some (W xb1 x20 xe5 xec xff x65 x45 x43)) O
(C x31 (Some (W xfe x1e xe5 xec xff x64 x45 x43)) O
(C x32 (Some (W x4b x1d xe5 xec xff x63 x45 x43)) O
(C x33 (Some (W x98 x1b xe5 xec xff x62 x45 x43)) O
(C x34 (Some (W x7d x27 xe5 xec xff x69 x45 x43)) O
(C x35 (Some (W xca x25 xe5 xec xff x68 x45 x43)) O
(C x36 (Some (W x17 x24 xe5 xec xff x67 x45 x43)) O
(C x37 (Some (W x64 x22 xe5 xec xff x66 x45 x43)) O
(C x38 (Some (W x19 x13 xe5 xec xff x5d x45 x43)) O
(C x39 (Some (W x66 x11 xe5 xec xff x5c x45 x43)) O
O))))))))))
(C x34 (Some (W xba xc2 x33 x97 x85 xad x5f x5f)) (C x30 (Some (W x7e x90 xf3 xec xff x63 x56 x43)) O
(C x31 (Some (W x31 x92 xf3 xec xff x64 x56 x43)) O
(C x32 (Some (W x18 x8d xf3 xec xff x61 x56 x43)) O
(C x33 (Some (W xcb x8e xf3 xec xff x62 x56 x43)) O
(C x34 (Some (W x4a x97 xf3 xec xff x67 x56 x43)) O
(C x35 (Some (W xfd x98 xf3 xec xff x68 x56 x43)) O
(C x36 (Some (W xe4 x93 xf3 xec xff x65 x56 x43)) O
(C x37 (Some (W x97 x95 xf3 xec xff x66 x56 x43)) O
(C x38 (Some (W xe6 x82 xf3 xec xff x5b x56 x43)) O
(C x39 (Some (W x99 x84 xf3 xec xff x5c x56 x43)) O
O))))))))))
(C x35 (Some (W x6d xc4 x33 x97 x85 xae x5f x5f)) O
(C x36 (Some (W x54 xbf x33 x97 x85 xab x5f x5f)) O
(C x37 (Some (W x07 xc1 x33 x97 x85 xac x5f x5f)) O
(C x38 (Some (W x56 xae x33 x97 x85 xa1 x5f x5f)) O
(C x39 (Some (W x09 xb0 x33 x97 x85 xa2 x5f x5f)) O
O))))))))))
(C x32 None (C x30 (Some (W x65 xa2 x30 x97 x85 x23 x5c x5f)) O
(C x31 (Some (W xb2 xa0 x30 x97 x85 x22 x5c x5f)) O
(C x32 (Some (W xff x9e x30 x97 x85 x21 x5c x5f)) O
(C x33 (Some (W x4c x9d x30 x97 x85 x20 x5c x5f)) O
(C x34 (Some (W x99 x9b x30 x97 x85 x1f x5c x5f)) O
(C x35 (Some (W xe6 x99 x30 x97 x85 x1e x5c x5f)) O
(C x36 (Some (W x33 x98 x30 x97 x85 x1d x5c x5f)) O
(C x37 (Some (W x80 x96 x30 x97 x85 x1c x5c x5f)) O
(C x38 (Some (W xfd xaf x30 x97 x85 x2b x5c x5f)) O
(C x39 (Some (W x4a xae x30 x97 x85 x2a x5c x5f)) O
O))))))))))
(C x33 None (C x30 (Some (W x5c x62 x2e x97 x85 x1d x59 x5f)) O
(C x31 (Some (W x0f x64 x2e x97 x85 x1e x59 x5f)) O
(C x32 (Some (W xc2 x65 x2e x97 x85 x1f x59 x5f)) O
(C x33 (Some (W x75 x67 x2e x97 x85 x20 x59 x5f)) O
(C x34 (Some (W x90 x5b x2e x97 x85 x19 x59 x5f)) O
(C x35 (Some (W x43 x5d x2e x97 x85 x1a x59 x5f)) O
(C x36 (Some (W xf6 x5e x2e x97 x85 x1b x59 x5f)) O
(C x37 (Some (W xa9 x60 x2e x97 x85 x1c x59 x5f)) O
(C x38 (Some (W xf4 x6f x2e x97 x85 x25 x59 x5f)) O
(C x39 (Some (W xa7 x71 x2e x97 x85 x26 x59 x5f)) O
O))))))))))
(C x34 None (C x30 (Some (W xd3 x48 x2b x97 x85 x97 x55 x5f)) O
(C x31 (Some (W x20 x47 x2b x97 x85 x96 x55 x5f)) O
(C x32 (Some (W x39 x4c x2b x97 x85 x99 x55 x5f)) O
(C x33 (Some (W x86 x4a x2b x97 x85 x98 x55 x5f)) O
(C x34 (Some (W x9f x4f x2b x97 x85 x9b x55 x5f)) O
(C x35 (Some (W xec x4d x2b x97 x85 x9a x55 x5f)) O
(C x36 (Some (W x05 x53 x2b x97 x85 x9d x55 x5f)) O
(C x37 (Some (W x52 x51 x2b x97 x85 x9c x55 x5f)) O
(C x38 (Some (W x6b x56 x2b x97 x85 x9f x55 x5f)) O
(C x39 (Some (W xb8 x54 x2b x97 x85 x9e x55 x5f)) O
O))))))))))
(C x35 None (C x30 (Some (W xaa x65 x28 x97 x85 x31 x52 x5f)) O
(C x31 (Some (W x5d x67 x28 x97 x85 x32 x52 x5f)) O
(C x32 (Some (W x44 x62 x28 x97 x85 x2f x52 x5f)) O
(C x33 (Some (W xf7 x63 x28 x97 x85 x30 x52 x5f)) O
(C x34 (Some (W xde x5e x28 x97 x85 x2d x52 x5f)) O
(C x35 (Some (W x91 x60 x28 x97 x85 x2e x52 x5f)) O
(C x36 (Some (W x78 x5b x28 x97 x85 x2b x52 x5f)) O
(C x37 (Some (W x2b x5d x28 x97 x85 x2c x52 x5f)) O
(C x38 (Some (W x12 x58 x28 x97 x85 x29 x52 x5f)) O
(C x39 (Some (W xc5 x59 x28 x97 x85 x2a x52 x5f)) O
O))))))))))
(C x36 None (C x30 (Some (W x21 x4c x25 x97 x85 xab x4e x5f)) O
(C x31 (Some (W x6e x4a x25 x97 x85 xaa x4e x5f)) O
(C x32 (Some (W xbb x48 x25 x97 x85 xa9 x4e x5f)) O
(C x33 (Some (W x08 x47 x25 x97 x85 xa8 x4e x5f)) O
(C x34 (Some (W xed x52 x25 x97 x85 xaf x4e x5f)) O
(C x35 (Some (W x3a x51 x25 x97 x85 xae x4e x5f)) O
(C x36 (Some (W x87 x4f x25 x97 x85 xad x4e x5f)) O
(C x37 (Some (W xd4 x4d x25 x97 x85 xac x4e x5f)) O
(C x38 (Some (W x89 x3e x25 x97 x85 xa3 x4e x5f)) O
(C x39 (Some (W xd6 x3c x25 x97 x85 xa2 x4e x5f)) O
O))))))))))
(C x37 None (C x30 (Some (W x98 x32 x22 x97 x85 x25 x4b x5f)) O
(C x31 (Some (W x4b x34 x22 x97 x85 x26 x4b x5f)) O
(C x32 (Some (W xfe x35 x22 x97 x85 x27 x4b x5f)) O
(C x33 (Some (W xb1 x37 x22 x97 x85 x28 x4b x5f)) O
(C x34 (Some (W x64 x39 x22 x97 x85 x29 x4b x5f)) O
(C x35 (Some (W x17 x3b x22 x97 x85 x2a x4b x5f)) O
(C x36 (Some (W xca x3c x22 x97 x85 x2b x4b x5f)) O
(C x37 (Some (W x7d x3e x22 x97 x85 x2c x4b x5f)) O
(C x38 (Some (W x00 x25 x22 x97 x85 x1d x4b x5f)) O
(C x39 (Some (W xb3 x26 x22 x97 x85 x1e x4b x5f)) O
O))))))))))
(C x38 None (C x30 (Some (W x8f xf2 x1f x97 x85 x1f x48 x5f)) O
(C x31 (Some (W xdc xf0 x1f x97 x85 x1e x48 x5f)) O
(C x32 (Some (W xf5 xf5 x1f x97 x85 x21 x48 x5f)) O
(C x33 (Some (W x42 xf4 x1f x97 x85 x20 x48 x5f)) O
(C x34 (Some (W xc3 xeb x1f x97 x85 x1b x48 x5f)) O
(C x35 (Some (W x10 xea x1f x97 x85 x1a x48 x5f)) O
(C x36 (Some (W x29 xef x1f x97 x85 x1d x48 x5f)) O
(C x37 (Some (W x76 xed x1f x97 x85 x1c x48 x5f)) O
(C x38 (Some (W x27 x00 x20 x97 x85 x27 x48 x5f)) O
(C x39 (Some (W x74 xfe x1f x97 x85 x26 x48 x5f)) O
O))))))))))
(C x39 None (C x30 (Some (W x06 xd9 x1c x97 x85 x99 x44 x5f)) O
(C x31 (Some (W xb9 xda x1c x97 x85 x9a x44 x5f)) O
(C x32 (Some (W xa0 xd5 x1c x97 x85 x97 x44 x5f)) O
(C x33 (Some (W x53 xd7 x1c x97 x85 x98 x44 x5f)) O
(C x34 (Some (W xd2 xdf x1c x97 x85 x9d x44 x5f)) O
(C x35 (Some (W x85 xe1 x1c x97 x85 x9e x44 x5f)) O
(C x36 (Some (W x6c xdc x1c x97 x85 x9b x44 x5f)) O
(C x37 (Some (W x1f xde x1c x97 x85 x9c x44 x5f)) O
(C x38 (Some (W x9e xe6 x1c x97 x85 xa1 x44 x5f)) O
(C x39 (Some (W x51 xe8 x1c x97 x85 xa2 x44 x5f)) O
O))))))))))
O))))))))))
O)
O)
(C x72 None (C x61 None (C x5f None (C x30 None (C x30 (Some (W x61 x75 xce x39 x24 x63 xe5 x13)) O
(C x31 (Some (W xae x73 xce x39 x24 x62 xe5 x13)) O
(C x32 (Some (W xfb x71 xce x39 x24 x61 xe5 x13)) O
(C x33 (Some (W x48 x70 xce x39 x24 x60 xe5 x13)) O
(C x34 (Some (W x2d x7c xce x39 x24 x67 xe5 x13)) O
(C x35 (Some (W x7a x7a xce x39 x24 x66 xe5 x13)) O
(C x36 (Some (W xc7 x78 xce x39 x24 x65 xe5 x13)) O
(C x37 (Some (W x14 x77 xce x39 x24 x64 xe5 x13)) O
(C x38 (Some (W xc9 x67 xce x39 x24 x5b xe5 x13)) O
(C x39 (Some (W x16 x66 xce x39 x24 x5a xe5 x13)) O
O))))))))))
(C x31 None (C x30 (Some (W xd8 x5b xcb x39 x24 xdd xe1 x13)) (C x30 (Some (W x38 x2b x8d x34 x8e xac x26 x94)) O
(C x31 (Some (W xeb x2c x8d x34 x8e xad x26 x94)) O
(C x32 (Some (W x9e x2e x8d x34 x8e xae x26 x94)) O
(C x33 (Some (W x51 x30 x8d x34 x8e xaf x26 x94)) O
(C x34 (Some (W x04 x32 x8d x34 x8e xb0 x26 x94)) O
(C x35 (Some (W xb7 x33 x8d x34 x8e xb1 x26 x94)) O
(C x36 (Some (W x6a x35 x8d x34 x8e xb2 x26 x94)) O
(C x37 (Some (W x1d x37 x8d x34 x8e xb3 x26 x94)) O
(C x38 (Some (W xa0 x1d x8d x34 x8e xa4 x26 x94)) O
(C x39 (Some (W x53 x1f x8d x34 x8e xa5 x26 x94)) O
O))))))))))
(C x31 (Some (W x8b x5d xcb x39 x24 xde xe1 x13)) (C x30 (Some (W xc1 x44 x90 x34 x8e x32 x2a x94)) O
(C x31 (Some (W x0e x43 x90 x34 x8e x31 x2a x94)) O
(C x32 (Some (W x5b x41 x90 x34 x8e x30 x2a x94)) O
(C x33 (Some (W xa8 x3f x90 x34 x8e x2f x2a x94)) O
(C x34 (Some (W x8d x4b x90 x34 x8e x36 x2a x94)) O
(C x35 (Some (W xda x49 x90 x34 x8e x35 x2a x94)) O
(C x36 (Some (W x27 x48 x90 x34 x8e x34 x2a x94)) O
(C x37 (Some (W x74 x46 x90 x34 x8e x33 x2a x94)) O
(C x38 (Some (W x29 x37 x90 x34 x8e x2a x2a x94)) O
(C x39 (Some (W x76 x35 x90 x34 x8e x29 x2a x94)) O
O))))))))))
(C x32 (Some (W x3e x5f xcb x39 x24 xdf xe1 x13)) (C x30 (Some (W xca x84 x92 x34 x8e x38 x2d x94)) O
(C x31 (Some (W x7d x86 x92 x34 x8e x39 x2d x94)) O
(C x32 (Some (W x64 x81 x92 x34 x8e x36 x2d x94)) O
(C x33 (Some (W x17 x83 x92 x34 x8e x37 x2d x94)) O
(C x34 (Some (W xfe x7d x92 x34 x8e x34 x2d x94)) O
(C x35 (Some (W xb1 x7f x92 x34 x8e x35 x2d x94)) O
(C x36 (Some (W x98 x7a x92 x34 x8e x32 x2d x94)) O
(C x37 (Some (W x4b x7c x92 x34 x8e x33 x2d x94)) O
(C x38 (Some (W x32 x77 x92 x34 x8e x30 x2d x94)) O
(C x39 (Some (W xe5 x78 x92 x34 x8e x31 x2d x94)) O
O))))))))))
(C x33 (Some (W xf1 x60 xcb x39 x24 xe0 xe1 x13)) (C x30 (Some (W xf3 x67 x95 x34 x8e x9e x30 x94)) O
(C x31 (Some (W x40 x66 x95 x34 x8e x9d x30 x94)) O
(C x32 (Some (W x59 x6b x95 x34 x8e xa0 x30 x94)) O
(C x33 (Some (W xa6 x69 x95 x34 x8e x9f x30 x94)) O
(C x34 (Some (W xbf x6e x95 x34 x8e xa2 x30 x94)) O
(C x35 (Some (W x0c x6d x95 x34 x8e xa1 x30 x94)) O
(C x36 (Some (W x25 x72 x95 x34 x8e xa4 x30 x94)) O
(C x37 (Some (W x72 x70 x95 x34 x8e xa3 x30 x94)) O
(C x38 (Some (W x8b x75 x95 x34 x8e xa6 x30 x94)) O
(C x39 (Some (W xd8 x73 x95 x34 x8e xa5 x30 x94)) O
O))))))))))
(C x34 (Some (W xa4 x62 xcb x39 x24 xe1 xe1 x13)) (C x30 (Some (W x7c x81 x98 x34 x8e x24 x34 x94)) O
(C x31 (Some (W x2f x83 x98 x34 x8e x25 x34 x94)) O
(C x32 (Some (W xe2 x84 x98 x34 x8e x26 x34 x94)) O
(C x33 (Some (W x95 x86 x98 x34 x8e x27 x34 x94)) O
(C x34 (Some (W xb0 x7a x98 x34 x8e x20 x34 x94)) O
(C x35 (Some (W x63 x7c x98 x34 x8e x21 x34 x94)) O
(C x36 (Some (W x16 x7e x98 x34 x8e x22 x34 x94)) O
(C x37 (Some (W xc9 x7f x98 x34 x8e x23 x34 x94)) O
(C x38 (Some (W x14 x8f x98 x34 x8e x2c x34 x94)) O
(C x39 (Some (W xc7 x90 x98 x34 x8e x2d x34 x94)) O
O))))))))))
(C x35 (Some (W x57 x64 xcb x39 x24 xe2 xe1 x13)) O
(C x36 (Some (W x0a x66 xcb x39 x24 xe3 xe1 x13)) O
(C x37 (Some (W xbd x67 xcb x39 x24 xe4 xe1 x13)) O
(C x38 (Some (W x40 x4e xcb x39 x24 xd5 xe1 x13)) O
(C x39 (Some (W xf3 x4f xcb x39 x24 xd6 xe1 x13)) O
O))))))))))
(C x32 None (C x30 (Some (W x13 x72 xd4 x39 x24 x4f xec x13)) O
(C x31 (Some (W x60 x70 xd4 x39 x24 x4e xec x13)) O
(C x32 (Some (W x79 x75 xd4 x39 x24 x51 xec x13)) O
(C x33 (Some (W xc6 x73 xd4 x39 x24 x50 xec x13)) O
(C x34 (Some (W xdf x78 xd4 x39 x24 x53 xec x13)) O
(C x35 (Some (W x2c x77 xd4 x39 x24 x52 xec x13)) O
(C x36 (Some (W x45 x7c xd4 x39 x24 x55 xec x13)) O
(C x37 (Some (W x92 x7a xd4 x39 x24 x54 xec x13)) O
(C x38 (Some (W xab x7f xd4 x39 x24 x57 xec x13)) O
(C x39 (Some (W xf8 x7d xd4 x39 x24 x56 xec x13)) O
O))))))))))
(C x33 None (C x30 (Some (W xea x8e xd1 x39 x24 xe9 xe8 x13)) O
(C x31 (Some (W x9d x90 xd1 x39 x24 xea xe8 x13)) O
(C x32 (Some (W x84 x8b xd1 x39 x24 xe7 xe8 x13)) O
(C x33 (Some (W x37 x8d xd1 x39 x24 xe8 xe8 x13)) O
(C x34 (Some (W x1e x88 xd1 x39 x24 xe5 xe8 x13)) O
(C x35 (Some (W xd1 x89 xd1 x39 x24 xe6 xe8 x13)) O
(C x36 (Some (W xb8 x84 xd1 x39 x24 xe3 xe8 x13)) O
(C x37 (Some (W x6b x86 xd1 x39 x24 xe4 xe8 x13)) O
(C x38 (Some (W x52 x81 xd1 x39 x24 xe1 xe8 x13)) O
(C x39 (Some (W x05 x83 xd1 x39 x24 xe2 xe8 x13)) O
O))))))))))
(C x34 None (C x30 (Some (W xa5 xcb xd9 x39 x24 xdb xf2 x13)) O
(C x31 (Some (W xf2 xc9 xd9 x39 x24 xda xf2 x13)) O
(C x32 (Some (W x3f xc8 xd9 x39 x24 xd9 xf2 x13)) O
(C x33 (Some (W x8c xc6 xd9 x39 x24 xd8 xf2 x13)) O
(C x34 (Some (W xd9 xc4 xd9 x39 x24 xd7 xf2 x13)) O
(C x35 (Some (W x26 xc3 xd9 x39 x24 xd6 xf2 x13)) O
(C x36 (Some (W x73 xc1 xd9 x39 x24 xd5 xf2 x13)) O
(C x37 (Some (W xc0 xbf xd9 x39 x24 xd4 xf2 x13)) O
(C x38 (Some (W x3d xd9 xd9 x39 x24 xe3 xf2 x13)) O
(C x39 (Some (W x8a xd7 xd9 x39 x24 xe2 xf2 x13)) O
O))))))))))
(C x35 None (C x30 (Some (W x9c x8b xd7 x39 x24 xd5 xef x13)) O
(C x31 (Some (W x4f x8d xd7 x39 x24 xd6 xef x13)) O
(C x32 (Some (W x02 x8f xd7 x39 x24 xd7 xef x13)) O
(C x33 (Some (W xb5 x90 xd7 x39 x24 xd8 xef x13)) O
(C x34 (Some (W xd0 x84 xd7 x39 x24 xd1 xef x13)) O
(C x35 (Some (W x83 x86 xd7 x39 x24 xd2 xef x13)) O
(C x36 (Some (W x36 x88 xd7 x39 x24 xd3 xef x13)) O
(C x37 (Some (W xe9 x89 xd7 x39 x24 xd4 xef x13)) O
(C x38 (Some (W x34 x99 xd7 x39 x24 xdd xef x13)) O
(C x39 (Some (W xe7 x9a xd7 x39 x24 xde xef x13)) O
O))))))))))
(C x36 None (C x30 (Some (W xb7 xfe xdf x39 x24 xe7 xf9 x13)) O
(C x31 (Some (W x04 xfd xdf x39 x24 xe6 xf9 x13)) O
(C x32 (Some (W x1d x02 xe0 x39 x24 xe9 xf9 x13)) O
(C x33 (Some (W x6a x00 xe0 x39 x24 xe8 xf9 x13)) O
(C x34 (Some (W xeb xf7 xdf x39 x24 xe3 xf9 x13)) O
(C x35 (Some (W x38 xf6 xdf x39 x24 xe2 xf9 x13)) O
(C x36 (Some (W x51 xfb xdf x39 x24 xe5 xf9 x13)) O
(C x37 (Some (W x9e xf9 xdf x39 x24 xe4 xf9 x13)) O
(C x38 (Some (W x1f xf1 xdf x39 x24 xdf xf9 x13)) O
(C x39 (Some (W x6c xef xdf x39 x24 xde xf9 x13)) O
O))))))))))
(C x37 None (C x30 (Some (W x2e xe5 xdc x39 x24 x61 xf6 x13)) O
(C x31 (Some (W xe1 xe6 xdc x39 x24 x62 xf6 x13)) O
(C x32 (Some (W xc8 xe1 xdc x39 x24 x5f xf6 x13)) O
(C x33 (Some (W x7b xe3 xdc x39 x24 x60 xf6 x13)) O
(C x34 (Some (W xfa xeb xdc x39 x24 x65 xf6 x13)) O
(C x35 (Some (W xad xed xdc x39 x24 x66 xf6 x13)) O
(C x36 (Some (W x94 xe8 xdc x39 x24 x63 xf6 x13)) O
(C x37 (Some (W x47 xea xdc x39 x24 x64 xf6 x13)) O
(C x38 (Some (W x96 xd7 xdc x39 x24 x59 xf6 x13)) O
(C x39 (Some (W x49 xd9 xdc x39 x24 x5a xf6 x13)) O
O))))))))))
(C x38 None (C x30 (Some (W x79 x92 xb7 x39 x24 x53 xca x13)) O
(C x31 (Some (W xc6 x90 xb7 x39 x24 x52 xca x13)) O
(C x32 (Some (W x13 x8f xb7 x39 x24 x51 xca x13)) O
(C x33 (Some (W x60 x8d xb7 x39 x24 x50 xca x13)) O
(C x34 (Some (W x45 x99 xb7 x39 x24 x57 xca x13)) O
(C x35 (Some (W x92 x97 xb7 x39 x24 x56 xca x13)) O
(C x36 (Some (W xdf x95 xb7 x39 x24 x55 xca x13)) O
(C x37 (Some (W x2c x94 xb7 x39 x24 x54 xca x13)) O
(C x38 (Some (W x11 xa0 xb7 x39 x24 x5b xca x13)) O
(C x39 (Some (W x5e x9e xb7 x39 x24 x5a xca x13)) O
O))))))))))
(C x39 None (C x30 (Some (W xf0 x78 xb4 x39 x24 xcd xc6 x13)) O
(C x31 (Some (W xa3 x7a xb4 x39 x24 xce xc6 x13)) O
(C x32 (Some (W x56 x7c xb4 x39 x24 xcf xc6 x13)) O
(C x33 (Some (W x09 x7e xb4 x39 x24 xd0 xc6 x13)) O
(C x34 (Some (W xbc x7f xb4 x39 x24 xd1 xc6 x13)) O
(C x35 (Some (W x6f x81 xb4 x39 x24 xd2 xc6 x13)) O
(C x36 (Some (W x22 x83 xb4 x39 x24 xd3 xc6 x13)) O
(C x37 (Some (W xd5 x84 xb4 x39 x24 xd4 xc6 x13)) O
(C x38 (Some (W x88 x86 xb4 x39 x24 xd5 xc6 x13)) O
(C x39 (Some (W x3b x88 xb4 x39 x24 xd6 xc6 x13)) O
O))))))))))
O))))))))))
O)
O)
O)))
O)
O)
O)
(C x6f None (C x79 None (C x62 None (C x5f None (C x65 None (C x78 None (C x5f None (C x30 None (C x30 (Some (W x7c x4b x69 x12 x83 x6f x37 xc6)) O
(C x31 (Some (W x2f x4d x69 x12 x83 x70 x37 xc6)) O
(C x32 (Some (W xe2 x4e x69 x12 x83 x71 x37 xc6)) O
(C x33 (Some (W x95 x50 x69 x12 x83 x72 x37 xc6)) O
(C x34 (Some (W xb0 x44 x69 x12 x83 x6b x37 xc6)) O
(C x35 (Some (W x63 x46 x69 x12 x83 x6c x37 xc6)) O
(C x36 (Some (W x16 x48 x69 x12 x83 x6d x37 xc6)) O
(C x37 (Some (W xc9 x49 x69 x12 x83 x6e x37 xc6)) O
(C x38 (Some (W x14 x59 x69 x12 x83 x77 x37 xc6)) O
(C x39 (Some (W xc7 x5a x69 x12 x83 x78 x37 xc6)) O
O))))))))))
(C x31 None (C x30 (Some (W x05 x65 x6c x12 x83 xf5 x3a xc6)) (C x30 (Some (W x0f xf9 x2f x4e xb8 x62 x94 x42)) O
(C x31 (Some (W x5c xf7 x2f x4e xb8 x61 x94 x42)) O
(C x32 (Some (W x75 xfc x2f x4e xb8 x64 x94 x42)) O
(C x33 (Some (W xc2 xfa x2f x4e xb8 x63 x94 x42)) O
(C x34 (Some (W x43 xf2 x2f x4e xb8 x5e x94 x42)) O
(C x35 (Some (W x90 xf0 x2f x4e xb8 x5d x94 x42)) O
(C x36 (Some (W xa9 xf5 x2f x4e xb8 x60 x94 x42)) O
(C x37 (Some (W xf6 xf3 x2f x4e xb8 x5f x94 x42)) O
(C x38 (Some (W xa7 x06 x30 x4e xb8 x6a x94 x42)) O
(C x39 (Some (W xf4 x04 x30 x4e xb8 x69 x94 x42)) O
O))))))))))
(C x31 (Some (W x52 x63 x6c x12 x83 xf4 x3a xc6)) (C x30 (Some (W x86 xdf x2c x4e xb8 xdc x90 x42)) O
(C x31 (Some (W x39 xe1 x2c x4e xb8 xdd x90 x42)) O
(C x32 (Some (W x20 xdc x2c x4e xb8 xda x90 x42)) O
(C x33 (Some (W xd3 xdd x2c x4e xb8 xdb x90 x42)) O
(C x34 (Some (W x52 xe6 x2c x4e xb8 xe0 x90 x42)) O
(C x35 (Some (W x05 xe8 x2c x4e xb8 xe1 x90 x42)) O
(C x36 (Some (W xec xe2 x2c x4e xb8 xde x90 x42)) O
(C x37 (Some (W x9f xe4 x2c x4e xb8 xdf x90 x42)) O
(C x38 (Some (W x1e xed x2c x4e xb8 xe4 x90 x42)) O
(C x39 (Some (W xd1 xee x2c x4e xb8 xe5 x90 x42)) O
O))))))))))
(C x32 (Some (W x9f x61 x6c x12 x83 xf3 x3a xc6)) (C x30 (Some (W x5d xfc x29 x4e xb8 x76 x8d x42)) O
(C x31 (Some (W xaa xfa x29 x4e xb8 x75 x8d x42)) O
(C x32 (Some (W xf7 xf8 x29 x4e xb8 x74 x8d x42)) O
(C x33 (Some (W x44 xf7 x29 x4e xb8 x73 x8d x42)) O
(C x34 (Some (W x91 xf5 x29 x4e xb8 x72 x8d x42)) O
(C x35 (Some (W xde xf3 x29 x4e xb8 x71 x8d x42)) O
(C x36 (Some (W x2b xf2 x29 x4e xb8 x70 x8d x42)) O
(C x37 (Some (W x78 xf0 x29 x4e xb8 x6f x8d x42)) O
(C x38 (Some (W xc5 xee x29 x4e xb8 x6e x8d x42)) O
(C x39 (Some (W x12 xed x29 x4e xb8 x6d x8d x42)) O
O))))))))))
(C x33 (Some (W xec x5f x6c x12 x83 xf2 x3a xc6)) (C x30 (Some (W xd4 xe2 x26 x4e xb8 xf0 x89 x42)) O
(C x31 (Some (W x87 xe4 x26 x4e xb8 xf1 x89 x42)) O
(C x32 (Some (W x3a xe6 x26 x4e xb8 xf2 x89 x42)) O
(C x33 (Some (W xed xe7 x26 x4e xb8 xf3 x89 x42)) O
(C x34 (Some (W x08 xdc x26 x4e xb8 xec x89 x42)) O
(C x35 (Some (W xbb xdd x26 x4e xb8 xed x89 x42)) O
(C x36 (Some (W x6e xdf x26 x4e xb8 xee x89 x42)) O
(C x37 (Some (W x21 xe1 x26 x4e xb8 xef x89 x42)) O
(C x38 (Some (W x3c xd5 x26 x4e xb8 xe8 x89 x42)) O
(C x39 (Some (W xef xd6 x26 x4e xb8 xe9 x89 x42)) O
O))))))))))
(C x34 (Some (W x39 x5e x6c x12 x83 xf1 x3a xc6)) (C x30 (Some (W x4b xc9 x23 x4e xb8 x6a x86 x42)) O
(C x31 (Some (W x98 xc7 x23 x4e xb8 x69 x86 x42)) O
(C x32 (Some (W xb1 xcc x23 x4e xb8 x6c x86 x42)) O
(C x33 (Some (W xfe xca x23 x4e xb8 x6b x86 x42)) O
(C x34 (Some (W x17 xd0 x23 x4e xb8 x6e x86 x42)) O
(C x35 (Some (W x64 xce x23 x4e xb8 x6d x86 x42)) O
(C x36 (Some (W x7d xd3 x23 x4e xb8 x70 x86 x42)) O
(C x37 (Some (W xca xd1 x23 x4e xb8 x6f x86 x42)) O
(C x38 (Some (W xb3 xbb x23 x4e xb8 x62 x86 x42)) O
(C x39 (Some (W x00 xba x23 x4e xb8 x61 x86 x42)) O
O))))))))))
(C x35 (Some (W x86 x5c x6c x12 x83 xf0 x3a xc6)) O
(C x36 (Some (W xd3 x5a x6c x12 x83 xef x3a xc6)) O
(C x37 (Some (W x20 x59 x6c x12 x83 xee x3a xc6)) O
(C x38 (Some (W x9d x72 x6c x12 x83 xfd x3a xc6)) O
(C x39 (Some (W xea x70 x6c x12 x83 xfc x3a xc6)) O
O))))))))))
(C x32 None (C x30 (Some (W x8e x7e x6f x12 x83 x7b x3e xc6)) O
(C x31 (Some (W x41 x80 x6f x12 x83 x7c x3e xc6)) O
(C x32 (Some (W x28 x7b x6f x12 x83 x79 x3e xc6)) O
(C x33 (Some (W xdb x7c x6f x12 x83 x7a x3e xc6)) O
(C x34 (Some (W x5a x85 x6f x12 x83 x7f x3e xc6)) O
(C x35 (Some (W x0d x87 x6f x12 x83 x80 x3e xc6)) O
(C x36 (Some (W xf4 x81 x6f x12 x83 x7d x3e xc6)) O
(C x37 (Some (W xa7 x83 x6f x12 x83 x7e x3e xc6)) O
(C x38 (Some (W xf6 x70 x6f x12 x83 x73 x3e xc6)) O
(C x39 (Some (W xa9 x72 x6f x12 x83 x74 x3e xc6)) O
O))))))))))
(C x33 None (C x30 (Some (W x97 xbe x71 x12 x83 x81 x41 xc6)) O
(C x31 (Some (W xe4 xbc x71 x12 x83 x80 x41 xc6)) O
(C x32 (Some (W xfd xc1 x71 x12 x83 x83 x41 xc6)) O
(C x33 (Some (W x4a xc0 x71 x12 x83 x82 x41 xc6)) O
(C x34 (Some (W xcb xb7 x71 x12 x83 x7d x41 xc6)) O
(C x35 (Some (W x18 xb6 x71 x12 x83 x7c x41 xc6)) O
(C x36 (Some (W x31 xbb x71 x12 x83 x7f x41 xc6)) O
(C x37 (Some (W x7e xb9 x71 x12 x83 x7e x41 xc6)) O
(C x38 (Some (W xff xb0 x71 x12 x83 x79 x41 xc6)) O
(C x39 (Some (W x4c xaf x71 x12 x83 x78 x41 xc6)) O
O))))))))))
(C x34 None (C x30 (Some (W x38 xf5 x5d x12 x83 xf7 x29 xc6)) O
(C x31 (Some (W xeb xf6 x5d x12 x83 xf8 x29 xc6)) O
(C x32 (Some (W x9e xf8 x5d x12 x83 xf9 x29 xc6)) O
(C x33 (Some (W x51 xfa x5d x12 x83 xfa x29 xc6)) O
(C x34 (Some (W x04 xfc x5d x12 x83 xfb x29 xc6)) O
(C x35 (Some (W xb7 xfd x5d x12 x83 xfc x29 xc6)) O
(C x36 (Some (W x6a xff x5d x12 x83 xfd x29 xc6)) O
(C x37 (Some (W x1d x01 x5e x12 x83 xfe x29 xc6)) O
(C x38 (Some (W xa0 xe7 x5d x12 x83 xef x29 xc6)) O
(C x39 (Some (W x53 xe9 x5d x12 x83 xf0 x29 xc6)) O
O))))))))))
(C x35 None (C x30 (Some (W xc1 x0e x61 x12 x83 x7d x2d xc6)) O
(C x31 (Some (W x0e x0d x61 x12 x83 x7c x2d xc6)) O
(C x32 (Some (W x5b x0b x61 x12 x83 x7b x2d xc6)) O
(C x33 (Some (W xa8 x09 x61 x12 x83 x7a x2d xc6)) O
(C x34 (Some (W x8d x15 x61 x12 x83 x81 x2d xc6)) O
(C x35 (Some (W xda x13 x61 x12 x83 x80 x2d xc6)) O
(C x36 (Some (W x27 x12 x61 x12 x83 x7f x2d xc6)) O
(C x37 (Some (W x74 x10 x61 x12 x83 x7e x2d xc6)) O
(C x38 (Some (W x29 x01 x61 x12 x83 x75 x2d xc6)) O
(C x39 (Some (W x76 xff x60 x12 x83 x74 x2d xc6)) O
O))))))))))
(C x36 None (C x30 (Some (W xca x4e x63 x12 x83 x83 x30 xc6)) O
(C x31 (Some (W x7d x50 x63 x12 x83 x84 x30 xc6)) O
(C x32 (Some (W x64 x4b x63 x12 x83 x81 x30 xc6)) O
(C x33 (Some (W x17 x4d x63 x12 x83 x82 x30 xc6)) O
(C x34 (Some (W xfe x47 x63 x12 x83 x7f x30 xc6)) O
(C x35 (Some (W xb1 x49 x63 x12 x83 x80 x30 xc6)) O
(C x36 (Some (W x98 x44 x63 x12 x83 x7d x30 xc6)) O
(C x37 (Some (W x4b x46 x63 x12 x83 x7e x30 xc6)) O
(C x38 (Some (W x32 x41 x63 x12 x83 x7b x30 xc6)) O
(C x39 (Some (W xe5 x42 x63 x12 x83 x7c x30 xc6)) O
O))))))))))
(C x37 None (C x30 (Some (W xf3 x31 x66 x12 x83 xe9 x33 xc6)) O
(C x31 (Some (W x40 x30 x66 x12 x83 xe8 x33 xc6)) O
(C x32 (Some (W x59 x35 x66 x12 x83 xeb x33 xc6)) O
(C x33 (Some (W xa6 x33 x66 x12 x83 xea x33 xc6)) O
(C x34 (Some (W xbf x38 x66 x12 x83 xed x33 xc6)) O
(C x35 (Some (W x0c x37 x66 x12 x83 xec x33 xc6)) O
(C x36 (Some (W x25 x3c x66 x12 x83 xef x33 xc6)) O
(C x37 (Some (W x72 x3a x66 x12 x83 xee x33 xc6)) O
(C x38 (Some (W x8b x3f x66 x12 x83 xf1 x33 xc6)) O
(C x39 (Some (W xd8 x3d x66 x12 x83 xf0 x33 xc6)) O
O))))))))))
(C x38 None (C x30 (Some (W xf4 x9e x52 x12 x83 x7f x1c xc6)) O
(C x31 (Some (W xa7 xa0 x52 x12 x83 x80 x1c xc6)) O
(C x32 (Some (W x5a xa2 x52 x12 x83 x81 x1c xc6)) O
(C x33 (Some (W x0d xa4 x52 x12 x83 x82 x1c xc6)) O
(C x34 (Some (W x28 x98 x52 x12 x83 x7b x1c xc6)) O
(C x35 (Some (W xdb x99 x52 x12 x83 x7c x1c xc6)) O
(C x36 (Some (W x8e x9b x52 x12 x83 x7d x1c xc6)) O
(C x37 (Some (W x41 x9d x52 x12 x83 x7e x1c xc6)) O
(C x38 (Some (W x5c x91 x52 x12 x83 x77 x1c xc6)) O
(C x39 (Some (W x0f x93 x52 x12 x83 x78 x1c xc6)) O
O))))))))))
(C x39 None (C x30 (Some (W xfd xde x54 x12 x83 x85 x1f xc6)) O
(C x31 (Some (W x4a xdd x54 x12 x83 x84 x1f xc6)) O
(C x32 (Some (W x97 xdb x54 x12 x83 x83 x1f xc6)) O
(C x33 (Some (W xe4 xd9 x54 x12 x83 x82 x1f xc6)) O
(C x34 (Some (W x31 xd8 x54 x12 x83 x81 x1f xc6)) O
(C x35 (Some (W x7e xd6 x54 x12 x83 x80 x1f xc6)) O
(C x36 (Some (W xcb xd4 x54 x12 x83 x7f x1f xc6)) O
(C x37 (Some (W x18 xd3 x54 x12 x83 x7e x1f xc6)) O
(C x38 (Some (W x65 xd1 x54 x12 x83 x7d x1f xc6)) O
(C x39 (Some (W xb2 xcf x54 x12 x83 x7c x1f xc6)) O
O))))))))))
O))))))))))
O)
O)
(C x6e None (C x6f None (C x5f None (C x30 None (C x30 (Some (W x96 x63 xff x4b x84 x97 x7b x61)) O
(C x31 (Some (W x49 x65 xff x4b x84 x98 x7b x61)) O
(C x32 (Some (W x30 x60 xff x4b x84 x95 x7b x61)) O
(C x33 (Some (W xe3 x61 xff x4b x84 x96 x7b x61)) O
(C x34 (Some (W x62 x6a xff x4b x84 x9b x7b x61)) O
(C x35 (Some (W x15 x6c xff x4b x84 x9c x7b x61)) O
(C x36 (Some (W xfc x66 xff x4b x84 x99 x7b x61)) O
(C x37 (Some (W xaf x68 xff x4b x84 x9a x7b x61)) O
(C x38 (Some (W x2e x71 xff x4b x84 x9f x7b x61)) O
(C x39 (Some (W xe1 x72 xff x4b x84 xa0 x7b x61)) O
O))))))))))
(C x31 None (C x30 (Some (W x1f x7d x02 x4c x84 x1d x7f x61)) (C x30 (Some (W xdd xb6 x3a x28 xcd x56 x7c xad)) O
(C x31 (Some (W x2a xb5 x3a x28 xcd x55 x7c xad)) O
(C x32 (Some (W x77 xb3 x3a x28 xcd x54 x7c xad)) O
(C x33 (Some (W xc4 xb1 x3a x28 xcd x53 x7c xad)) O
(C x34 (Some (W x11 xb0 x3a x28 xcd x52 x7c xad)) O
(C x35 (Some (W x5e xae x3a x28 xcd x51 x7c xad)) O
(C x36 (Some (W xab xac x3a x28 xcd x50 x7c xad)) O
(C x37 (Some (W xf8 xaa x3a x28 xcd x4f x7c xad)) O
(C x38 (Some (W x45 xa9 x3a x28 xcd x4e x7c xad)) O
(C x39 (Some (W x92 xa7 x3a x28 xcd x4d x7c xad)) O
O))))))))))
(C x31 (Some (W x6c x7b x02 x4c x84 x1c x7f x61)) (C x30 (Some (W x54 x9d x37 x28 xcd xd0 x78 xad)) O
(C x31 (Some (W x07 x9f x37 x28 xcd xd1 x78 xad)) O
(C x32 (Some (W xba xa0 x37 x28 xcd xd2 x78 xad)) O
(C x33 (Some (W x6d xa2 x37 x28 xcd xd3 x78 xad)) O
(C x34 (Some (W x88 x96 x37 x28 xcd xcc x78 xad)) O
(C x35 (Some (W x3b x98 x37 x28 xcd xcd x78 xad)) O
(C x36 (Some (W xee x99 x37 x28 xcd xce x78 xad)) O
(C x37 (Some (W xa1 x9b x37 x28 xcd xcf x78 xad)) O
(C x38 (Some (W xbc x8f x37 x28 xcd xc8 x78 xad)) O
(C x39 (Some (W x6f x91 x37 x28 xcd xc9 x78 xad)) O
O))))))))))
(C x32 (Some (W x85 x80 x02 x4c x84 x1f x7f x61)) (C x30 (Some (W x8f xb3 x40 x28 xcd x42 x83 xad)) O
(C x31 (Some (W xdc xb1 x40 x28 xcd x41 x83 xad)) O
(C x32 (Some (W xf5 xb6 x40 x28 xcd x44 x83 xad)) O
(C x33 (Some (W x42 xb5 x40 x28 xcd x43 x83 xad)) O
(C x34 (Some (W xc3 xac x40 x28 xcd x3e x83 xad)) O
(C x35 (Some (W x10 xab x40 x28 xcd x3d x83 xad)) O
(C x36 (Some (W x29 xb0 x40 x28 xcd x40 x83 xad)) O
(C x37 (Some (W x76 xae x40 x28 xcd x3f x83 xad)) O
(C x38 (Some (W x27 xc1 x40 x28 xcd x4a x83 xad)) O
(C x39 (Some (W x74 xbf x40 x28 xcd x49 x83 xad)) O
O))))))))))
(C x33 (Some (W xd2 x7e x02 x4c x84 x1e x7f x61)) (C x30 (Some (W x06 x9a x3d x28 xcd xbc x7f xad)) O
(C x31 (Some (W xb9 x9b x3d x28 xcd xbd x7f xad)) O
(C x32 (Some (W xa0 x96 x3d x28 xcd xba x7f xad)) O
(C x33 (Some (W x53 x98 x3d x28 xcd xbb x7f xad)) O
(C x34 (Some (W xd2 xa0 x3d x28 xcd xc0 x7f xad)) O
(C x35 (Some (W x85 xa2 x3d x28 xcd xc1 x7f xad)) O
(C x36 (Some (W x6c x9d x3d x28 xcd xbe x7f xad)) O
(C x37 (Some (W x1f x9f x3d x28 xcd xbf x7f xad)) O
(C x38 (Some (W x9e xa7 x3d x28 xcd xc4 x7f xad)) O
(C x39 (Some (W x51 xa9 x3d x28 xcd xc5 x7f xad)) O
O))))))))))
(C x34 (Some (W x53 x76 x02 x4c x84 x19 x7f x61)) (C x30 (Some (W x39 x2a x2f x28 xcd xbe x6e xad)) O
(C x31 (Some (W x86 x28 x2f x28 xcd xbd x6e xad)) O
(C x32 (Some (W xd3 x26 x2f x28 xcd xbc x6e xad)) O
(C x33 (Some (W x20 x25 x2f x28 xcd xbb x6e xad)) O
(C x34 (Some (W x05 x31 x2f x28 xcd xc2 x6e xad)) O
(C x35 (Some (W x52 x2f x2f x28 xcd xc1 x6e xad)) O
(C x36 (Some (W x9f x2d x2f x28 xcd xc0 x6e xad)) O
(C x37 (Some (W xec x2b x2f x28 xcd xbf x6e xad)) O
(C x38 (Some (W xd1 x37 x2f x28 xcd xc6 x6e xad)) O
(C x39 (Some (W x1e x36 x2f x28 xcd xc5 x6e xad)) O
O))))))))))
(C x35 (Some (W xa0 x74 x02 x4c x84 x18 x7f x61)) O
(C x36 (Some (W xb9 x79 x02 x4c x84 x1b x7f x61)) O
(C x37 (Some (W x06 x78 x02 x4c x84 x1a x7f x61)) O
(C x38 (Some (W xb7 x8a x02 x4c x84 x25 x7f x61)) O
(C x39 (Some (W x04 x89 x02 x4c x84 x24 x7f x61)) O
O))))))))))
(C x32 None (C x30 (Some (W xe4 x66 xf9 x4b x84 xab x74 x61)) O
(C x31 (Some (W x97 x68 xf9 x4b x84 xac x74 x61)) O
(C x32 (Some (W x4a x6a xf9 x4b x84 xad x74 x61)) O
(C x33 (Some (W xfd x6b xf9 x4b x84 xae x74 x61)) O
(C x34 (Some (W x18 x60 xf9 x4b x84 xa7 x74 x61)) O
(C x35 (Some (W xcb x61 xf9 x4b x84 xa8 x74 x61)) O
(C x36 (Some (W x7e x63 xf9 x4b x84 xa9 x74 x61)) O
(C x37 (Some (W x31 x65 xf9 x4b x84 xaa x74 x61)) O
(C x38 (Some (W x4c x59 xf9 x4b x84 xa3 x74 x61)) O
(C x39 (Some (W xff x5a xf9 x4b x84 xa4 x74 x61)) O
O))))))))))
(C x33 None (C x30 (Some (W x6d x80 xfc x4b x84 x31 x78 x61)) O
(C x31 (Some (W xba x7e xfc x4b x84 x30 x78 x61)) O
(C x32 (Some (W x07 x7d xfc x4b x84 x2f x78 x61)) O
(C x33 (Some (W x54 x7b xfc x4b x84 x2e x78 x61)) O
(C x34 (Some (W xa1 x79 xfc x4b x84 x2d x78 x61)) O
(C x35 (Some (W xee x77 xfc x4b x84 x2c x78 x61)) O
(C x36 (Some (W x3b x76 xfc x4b x84 x2b x78 x61)) O
(C x37 (Some (W x88 x74 xfc x4b x84 x2a x78 x61)) O
(C x38 (Some (W xd5 x72 xfc x4b x84 x29 x78 x61)) O
(C x39 (Some (W x22 x71 xfc x4b x84 x28 x78 x61)) O
O))))))))))
(C x34 None (C x30 (Some (W x52 x0d xf4 x4b x84 x1f x6e x61)) O
(C x31 (Some (W x05 x0f xf4 x4b x84 x20 x6e x61)) O
(C x32 (Some (W xec x09 xf4 x4b x84 x1d x6e x61)) O
(C x33 (Some (W x9f x0b xf4 x4b x84 x1e x6e x61)) O
(C x34 (Some (W x86 x06 xf4 x4b x84 x1b x6e x61)) O
(C x35 (Some (W x39 x08 xf4 x4b x84 x1c x6e x61)) O
(C x36 (Some (W x20 x03 xf4 x4b x84 x19 x6e x61)) O
(C x37 (Some (W xd3 x04 xf4 x4b x84 x1a x6e x61)) O
(C x38 (Some (W xea x1a xf4 x4b x84 x27 x6e x61)) O
(C x39 (Some (W x9d x1c xf4 x4b x84 x28 x6e x61)) O
O))))))))))
(C x35 None (C x30 (Some (W xdb x26 xf7 x4b x84 xa5 x71 x61)) O
(C x31 (Some (W x28 x25 xf7 x4b x84 xa4 x71 x61)) O
(C x32 (Some (W x41 x2a xf7 x4b x84 xa7 x71 x61)) O
(C x33 (Some (W x8e x28 xf7 x4b x84 xa6 x71 x61)) O
(C x34 (Some (W xa7 x2d xf7 x4b x84 xa9 x71 x61)) O
(C x35 (Some (W xf4 x2b xf7 x4b x84 xa8 x71 x61)) O
(C x36 (Some (W x0d x31 xf7 x4b x84 xab x71 x61)) O
(C x37 (Some (W x5a x2f xf7 x4b x84 xaa x71 x61)) O
(C x38 (Some (W x43 x19 xf7 x4b x84 x9d x71 x61)) O
(C x39 (Some (W x90 x17 xf7 x4b x84 x9c x71 x61)) O
O))))))))))
(C x36 None (C x30 (Some (W x40 xda xed x4b x84 x13 x67 x61)) O
(C x31 (Some (W xf3 xdb xed x4b x84 x14 x67 x61)) O
(C x32 (Some (W xa6 xdd xed x4b x84 x15 x67 x61)) O
(C x33 (Some (W x59 xdf xed x4b x84 x16 x67 x61)) O
(C x34 (Some (W x0c xe1 xed x4b x84 x17 x67 x61)) O
(C x35 (Some (W xbf xe2 xed x4b x84 x18 x67 x61)) O
(C x36 (Some (W x72 xe4 xed x4b x84 x19 x67 x61)) O
(C x37 (Some (W x25 xe6 xed x4b x84 x1a x67 x61)) O
(C x38 (Some (W xd8 xe7 xed x4b x84 x1b x67 x61)) O
(C x39 (Some (W x8b xe9 xed x4b x84 x1c x67 x61)) O
O))))))))))
(C x37 None (C x30 (Some (W xc9 xf3 xf0 x4b x84 x99 x6a x61)) O
(C x31 (Some (W x16 xf2 xf0 x4b x84 x98 x6a x61)) O
(C x32 (Some (W x63 xf0 xf0 x4b x84 x97 x6a x61)) O
(C x33 (Some (W xb0 xee xf0 x4b x84 x96 x6a x61)) O
(C x34 (Some (W x95 xfa xf0 x4b x84 x9d x6a x61)) O
(C x35 (Some (W xe2 xf8 xf0 x4b x84 x9c x6a x61)) O
(C x36 (Some (W x2f xf7 xf0 x4b x84 x9b x6a x61)) O
(C x37 (Some (W x7c xf5 xf0 x4b x84 x9a x6a x61)) O
(C x38 (Some (W x61 x01 xf1 x4b x84 xa1 x6a x61)) O
(C x39 (Some (W xae xff xf0 x4b x84 xa0 x6a x61)) O
O))))))))))
(C x38 None (C x30 (Some (W x7e x46 x16 x4c x84 xa7 x96 x61)) O
(C x31 (Some (W x31 x48 x16 x4c x84 xa8 x96 x61)) O
(C x32 (Some (W x18 x43 x16 x4c x84 xa5 x96 x61)) O
(C x33 (Some (W xcb x44 x16 x4c x84 xa6 x96 x61)) O
(C x34 (Some (W x4a x4d x16 x4c x84 xab x96 x61)) O
(C x35 (Some (W xfd x4e x16 x4c x84 xac x96 x61)) O
(C x36 (Some (W xe4 x49 x16 x4c x84 xa9 x96 x61)) O
(C x37 (Some (W x97 x4b x16 x4c x84 xaa x96 x61)) O
(C x38 (Some (W xe6 x38 x16 x4c x84 x9f x96 x61)) O
(C x39 (Some (W x99 x3a x16 x4c x84 xa0 x96 x61)) O
O))))))))))
(C x39 None (C x30 (Some (W x07 x60 x19 x4c x84 x2d x9a x61)) O
(C x31 (Some (W x54 x5e x19 x4c x84 x2c x9a x61)) O
(C x32 (Some (W x6d x63 x19 x4c x84 x2f x9a x61)) O
(C x33 (Some (W xba x61 x19 x4c x84 x2e x9a x61)) O
(C x34 (Some (W x3b x59 x19 x4c x84 x29 x9a x61)) O
(C x35 (Some (W x88 x57 x19 x4c x84 x28 x9a x61)) O
(C x36 (Some (W xa1 x5c x19 x4c x84 x2b x9a x61)) O
(C x37 (Some (W xee x5a x19 x4c x84 x2a x9a x61)) O
(C x38 (Some (W x6f x52 x19 x4c x84 x25 x9a x61)) O
(C x39 (Some (W xbc x50 x19 x4c x84 x24 x9a x61)) O
O))))))))))
O))))))))))
O)
O)
(C x72 None (C x61 None (C x5f None (C x30 None (C x30 (Some (W x50 xee xc1 x46 xb8 x7b xc1 x4b)) O
(C x31 (Some (W x03 xf0 xc1 x46 xb8 x7c xc1 x4b)) O
(C x32 (Some (W xb6 xf1 xc1 x46 xb8 x7d xc1 x4b)) O
(C x33 (Some (W x69 xf3 xc1 x46 xb8 x7e xc1 x4b)) O
(C x34 (Some (W x1c xf5 xc1 x46 xb8 x7f xc1 x4b)) O
(C x35 (Some (W xcf xf6 xc1 x46 xb8 x80 xc1 x4b)) O
(C x36 (Some (W x82 xf8 xc1 x46 xb8 x81 xc1 x4b)) O
(C x37 (Some (W x35 xfa xc1 x46 xb8 x82 xc1 x4b)) O
(C x38 (Some (W xe8 xfb xc1 x46 xb8 x83 xc1 x4b)) O
(C x39 (Some (W x9b xfd xc1 x46 xb8 x84 xc1 x4b)) O
O))))))))))
(C x31 None (C x30 (Some (W x59 x2e xc4 x46 xb8 x81 xc4 x4b)) (C x30 (Some (W x6b xdc x5a x3f x20 xd5 x16 x83)) O
(C x31 (Some (W xb8 xda x5a x3f x20 xd4 x16 x83)) O
(C x32 (Some (W xd1 xdf x5a x3f x20 xd7 x16 x83)) O
(C x33 (Some (W x1e xde x5a x3f x20 xd6 x16 x83)) O
(C x34 (Some (W x37 xe3 x5a x3f x20 xd9 x16 x83)) O
(C x35 (Some (W x84 xe1 x5a x3f x20 xd8 x16 x83)) O
(C x36 (Some (W x9d xe6 x5a x3f x20 xdb x16 x83)) O
(C x37 (Some (W xea xe4 x5a x3f x20 xda x16 x83)) O
(C x38 (Some (W xd3 xce x5a x3f x20 xcd x16 x83)) O
(C x39 (Some (W x20 xcd x5a x3f x20 xcc x16 x83)) O
O))))))))))
(C x31 (Some (W xa6 x2c xc4 x46 xb8 x80 xc4 x4b)) (C x30 (Some (W xe2 xc2 x57 x3f x20 x4f x13 x83)) O
(C x31 (Some (W x95 xc4 x57 x3f x20 x50 x13 x83)) O
(C x32 (Some (W x7c xbf x57 x3f x20 x4d x13 x83)) O
(C x33 (Some (W x2f xc1 x57 x3f x20 x4e x13 x83)) O
(C x34 (Some (W x16 xbc x57 x3f x20 x4b x13 x83)) O
(C x35 (Some (W xc9 xbd x57 x3f x20 x4c x13 x83)) O
(C x36 (Some (W xb0 xb8 x57 x3f x20 x49 x13 x83)) O
(C x37 (Some (W x63 xba x57 x3f x20 x4a x13 x83)) O
(C x38 (Some (W x7a xd0 x57 x3f x20 x57 x13 x83)) O
(C x39 (Some (W x2d xd2 x57 x3f x20 x58 x13 x83)) O
O))))))))))
(C x32 (Some (W xf3 x2a xc4 x46 xb8 x7f xc4 x4b)) (C x30 (Some (W x59 xa9 x54 x3f x20 xc9 x0f x83)) O
(C x31 (Some (W xa6 xa7 x54 x3f x20 xc8 x0f x83)) O
(C x32 (Some (W xf3 xa5 x54 x3f x20 xc7 x0f x83)) O
(C x33 (Some (W x40 xa4 x54 x3f x20 xc6 x0f x83)) O
(C x34 (Some (W x25 xb0 x54 x3f x20 xcd x0f x83)) O
(C x35 (Some (W x72 xae x54 x3f x20 xcc x0f x83)) O
(C x36 (Some (W xbf xac x54 x3f x20 xcb x0f x83)) O
(C x37 (Some (W x0c xab x54 x3f x20 xca x0f x83)) O
(C x38 (Some (W xf1 xb6 x54 x3f x20 xd1 x0f x83)) O
(C x39 (Some (W x3e xb5 x54 x3f x20 xd0 x0f x83)) O
O))))))))))
(C x33 (Some (W x40 x29 xc4 x46 xb8 x7e xc4 x4b)) (C x30 (Some (W x50 x69 x52 x3f x20 xc3 x0c x83)) O
(C x31 (Some (W x03 x6b x52 x3f x20 xc4 x0c x83)) O
(C x32 (Some (W xb6 x6c x52 x3f x20 xc5 x0c x83)) O
(C x33 (Some (W x69 x6e x52 x3f x20 xc6 x0c x83)) O
(C x34 (Some (W x1c x70 x52 x3f x20 xc7 x0c x83)) O
(C x35 (Some (W xcf x71 x52 x3f x20 xc8 x0c x83)) O
(C x36 (Some (W x82 x73 x52 x3f x20 xc9 x0c x83)) O
(C x37 (Some (W x35 x75 x52 x3f x20 xca x0c x83)) O
(C x38 (Some (W xe8 x76 x52 x3f x20 xcb x0c x83)) O
(C x39 (Some (W x9b x78 x52 x3f x20 xcc x0c x83)) O
O))))))))))
(C x34 (Some (W x25 x35 xc4 x46 xb8 x85 xc4 x4b)) (C x30 (Some (W xaf x32 x66 x3f x20 x4d x24 x83)) O
(C x31 (Some (W xfc x30 x66 x3f x20 x4c x24 x83)) O
(C x32 (Some (W x15 x36 x66 x3f x20 x4f x24 x83)) O
(C x33 (Some (W x62 x34 x66 x3f x20 x4e x24 x83)) O
(C x34 (Some (W xe3 x2b x66 x3f x20 x49 x24 x83)) O
(C x35 (Some (W x30 x2a x66 x3f x20 x48 x24 x83)) O
(C x36 (Some (W x49 x2f x66 x3f x20 x4b x24 x83)) O
(C x37 (Some (W x96 x2d x66 x3f x20 x4a x24 x83)) O
(C x38 (Some (W x47 x40 x66 x3f x20 x55 x24 x83)) O
(C x39 (Some (W x94 x3e x66 x3f x20 x54 x24 x83)) O
O))))))))))
(C x35 (Some (W x72 x33 xc4 x46 xb8 x84 xc4 x4b)) O
(C x36 (Some (W xbf x31 xc4 x46 xb8 x83 xc4 x4b)) O
(C x37 (Some (W x0c x30 xc4 x46 xb8 x82 xc4 x4b)) O
(C x38 (Some (W xf1 x3b xc4 x46 xb8 x89 xc4 x4b)) O
(C x39 (Some (W x3e x3a xc4 x46 xb8 x88 xc4 x4b)) O
O))))))))))
(C x32 None (C x30 (Some (W xe2 x47 xc7 x46 xb8 x07 xc8 x4b)) O
(C x31 (Some (W x95 x49 xc7 x46 xb8 x08 xc8 x4b)) O
(C x32 (Some (W x7c x44 xc7 x46 xb8 x05 xc8 x4b)) O
(C x33 (Some (W x2f x46 xc7 x46 xb8 x06 xc8 x4b)) O
(C x34 (Some (W x16 x41 xc7 x46 xb8 x03 xc8 x4b)) O
(C x35 (Some (W xc9 x42 xc7 x46 xb8 x04 xc8 x4b)) O
(C x36 (Some (W xb0 x3d xc7 x46 xb8 x01 xc8 x4b)) O
(C x37 (Some (W x63 x3f xc7 x46 xb8 x02 xc8 x4b)) O
(C x38 (Some (W x7a x55 xc7 x46 xb8 x0f xc8 x4b)) O
(C x39 (Some (W x2d x57 xc7 x46 xb8 x10 xc8 x4b)) O
O))))))))))
(C x33 None (C x30 (Some (W x6b x61 xca x46 xb8 x8d xcb x4b)) O
(C x31 (Some (W xb8 x5f xca x46 xb8 x8c xcb x4b)) O
(C x32 (Some (W xd1 x64 xca x46 xb8 x8f xcb x4b)) O
(C x33 (Some (W x1e x63 xca x46 xb8 x8e xcb x4b)) O
(C x34 (Some (W x37 x68 xca x46 xb8 x91 xcb x4b)) O
(C x35 (Some (W x84 x66 xca x46 xb8 x90 xcb x4b)) O
(C x36 (Some (W x9d x6b xca x46 xb8 x93 xcb x4b)) O
(C x37 (Some (W xea x69 xca x46 xb8 x92 xcb x4b)) O
(C x38 (Some (W xd3 x53 xca x46 xb8 x85 xcb x4b)) O
(C x39 (Some (W x20 x52 xca x46 xb8 x84 xcb x4b)) O
O))))))))))
(C x34 None (C x30 (Some (W xf4 x7a xcd x46 xb8 x13 xcf x4b)) O
(C x31 (Some (W xa7 x7c xcd x46 xb8 x14 xcf x4b)) O
(C x32 (Some (W x5a x7e xcd x46 xb8 x15 xcf x4b)) O
(C x33 (Some (W x0d x80 xcd x46 xb8 x16 xcf x4b)) O
(C x34 (Some (W x28 x74 xcd x46 xb8 x0f xcf x4b)) O
(C x35 (Some (W xdb x75 xcd x46 xb8 x10 xcf x4b)) O
(C x36 (Some (W x8e x77 xcd x46 xb8 x11 xcf x4b)) O
(C x37 (Some (W x41 x79 xcd x46 xb8 x12 xcf x4b)) O
(C x38 (Some (W x5c x6d xcd x46 xb8 x0b xcf x4b)) O
(C x39 (Some (W x0f x6f xcd x46 xb8 x0c xcf x4b)) O
O))))))))))
(C x35 None (C x30 (Some (W xfd xba xcf x46 xb8 x19 xd2 x4b)) O
(C x31 (Some (W x4a xb9 xcf x46 xb8 x18 xd2 x4b)) O
(C x32 (Some (W x97 xb7 xcf x46 xb8 x17 xd2 x4b)) O
(C x33 (Some (W xe4 xb5 xcf x46 xb8 x16 xd2 x4b)) O
(C x34 (Some (W x31 xb4 xcf x46 xb8 x15 xd2 x4b)) O
(C x35 (Some (W x7e xb2 xcf x46 xb8 x14 xd2 x4b)) O
(C x36 (Some (W xcb xb0 xcf x46 xb8 x13 xd2 x4b)) O
(C x37 (Some (W x18 xaf xcf x46 xb8 x12 xd2 x4b)) O
(C x38 (Some (W x65 xad xcf x46 xb8 x11 xd2 x4b)) O
(C x39 (Some (W xb2 xab xcf x46 xb8 x10 xd2 x4b)) O
O))))))))))
(C x36 None (C x30 (Some (W x26 x9e xd2 x46 xb8 x7f xd5 x4b)) O
(C x31 (Some (W xd9 x9f xd2 x46 xb8 x80 xd5 x4b)) O
(C x32 (Some (W xc0 x9a xd2 x46 xb8 x7d xd5 x4b)) O
(C x33 (Some (W x73 x9c xd2 x46 xb8 x7e xd5 x4b)) O
(C x34 (Some (W xf2 xa4 xd2 x46 xb8 x83 xd5 x4b)) O
(C x35 (Some (W xa5 xa6 xd2 x46 xb8 x84 xd5 x4b)) O
(C x36 (Some (W x8c xa1 xd2 x46 xb8 x81 xd5 x4b)) O
(C x37 (Some (W x3f xa3 xd2 x46 xb8 x82 xd5 x4b)) O
(C x38 (Some (W xbe xab xd2 x46 xb8 x87 xd5 x4b)) O
(C x39 (Some (W x71 xad xd2 x46 xb8 x88 xd5 x4b)) O
O))))))))))
(C x37 None (C x30 (Some (W xaf xb7 xd5 x46 xb8 x05 xd9 x4b)) O
(C x31 (Some (W xfc xb5 xd5 x46 xb8 x04 xd9 x4b)) O
(C x32 (Some (W x15 xbb xd5 x46 xb8 x07 xd9 x4b)) O
(C x33 (Some (W x62 xb9 xd5 x46 xb8 x06 xd9 x4b)) O
(C x34 (Some (W xe3 xb0 xd5 x46 xb8 x01 xd9 x4b)) O
(C x35 (Some (W x30 xaf xd5 x46 xb8 x00 xd9 x4b)) O
(C x36 (Some (W x49 xb4 xd5 x46 xb8 x03 xd9 x4b)) O
(C x37 (Some (W x96 xb2 xd5 x46 xb8 x02 xd9 x4b)) O
(C x38 (Some (W x47 xc5 xd5 x46 xb8 x0d xd9 x4b)) O
(C x39 (Some (W x94 xc3 xd5 x46 xb8 x0c xd9 x4b)) O
O))))))))))
(C x38 None (C x30 (Some (W x38 xd1 xd8 x46 xb8 x8b xdc x4b)) O
(C x31 (Some (W xeb xd2 xd8 x46 xb8 x8c xdc x4b)) O
(C x32 (Some (W x9e xd4 xd8 x46 xb8 x8d xdc x4b)) O
(C x33 (Some (W x51 xd6 xd8 x46 xb8 x8e xdc x4b)) O
(C x34 (Some (W x04 xd8 xd8 x46 xb8 x8f xdc x4b)) O
(C x35 (Some (W xb7 xd9 xd8 x46 xb8 x90 xdc x4b)) O
(C x36 (Some (W x6a xdb xd8 x46 xb8 x91 xdc x4b)) O
(C x37 (Some (W x1d xdd xd8 x46 xb8 x92 xdc x4b)) O
(C x38 (Some (W xa0 xc3 xd8 x46 xb8 x83 xdc x4b)) O
(C x39 (Some (W x53 xc5 xd8 x46 xb8 x84 xdc x4b)) O
O))))))))))
(C x39 None (C x30 (Some (W xc1 xea xdb x46 xb8 x11 xe0 x4b)) O
(C x31 (Some (W x0e xe9 xdb x46 xb8 x10 xe0 x4b)) O
(C x32 (Some (W x5b xe7 xdb x46 xb8 x0f xe0 x4b)) O
(C x33 (Some (W xa8 xe5 xdb x46 xb8 x0e xe0 x4b)) O
(C x34 (Some (W x8d xf1 xdb x46 xb8 x15 xe0 x4b)) O
(C x35 (Some (W xda xef xdb x46 xb8 x14 xe0 x4b)) O
(C x36 (Some (W x27 xee xdb x46 xb8 x13 xe0 x4b)) O
(C x37 (Some (W x74 xec xdb x46 xb8 x12 xe0 x4b)) O
(C x38 (Some (W x29 xdd xdb x46 xb8 x09 xe0 x4b)) O
(C x39 (Some (W x76 xdb xdb x46 xb8 x08 xe0 x4b)) O
O))))))))))
O))))))))))
O)
O)
O)))
O)
O)
O)
(C x73 None (C x77 None (C x6d None (C x5f None (C x65 None (C x78 None (C x5f None (C x30 None (C x30 (Some (W x13 xe7 x95 x5d x28 x75 xc0 x65)) O
(C x31 (Some (W x60 xe5 x95 x5d x28 x74 xc0 x65)) O
(C x32 (Some (W x79 xea x95 x5d x28 x77 xc0 x65)) O
(C x33 (Some (W xc6 xe8 x95 x5d x28 x76 xc0 x65)) O
(C x34 (Some (W xdf xed x95 x5d x28 x79 xc0 x65)) O
(C x35 (Some (W x2c xec x95 x5d x28 x78 xc0 x65)) O
(C x36 (Some (W x45 xf1 x95 x5d x28 x7b xc0 x65)) O
(C x37 (Some (W x92 xef x95 x5d x28 x7a xc0 x65)) O
(C x38 (Some (W xab xf4 x95 x5d x28 x7d xc0 x65)) O
(C x39 (Some (W xf8 xf2 x95 x5d x28 x7c xc0 x65)) O
O))))))))))
(C x31 None (C x30 (Some (W xea x03 x93 x5d x28 x0f xbd x65)) (C x30 (Some (W x6e x8b xcf x00 x97 x9b x44 x73)) O
(C x31 (Some (W x21 x8d xcf x00 x97 x9c x44 x73)) O
(C x32 (Some (W x08 x88 xcf x00 x97 x99 x44 x73)) O
(C x33 (Some (W xbb x89 xcf x00 x97 x9a x44 x73)) O
(C x34 (Some (W x3a x92 xcf x00 x97 x9f x44 x73)) O
(C x35 (Some (W xed x93 xcf x00 x97 xa0 x44 x73)) O
(C x36 (Some (W xd4 x8e xcf x00 x97 x9d x44 x73)) O
(C x37 (Some (W x87 x90 xcf x00 x97 x9e x44 x73)) O
(C x38 (Some (W xd6 x7d xcf x00 x97 x93 x44 x73)) O
(C x39 (Some (W x89 x7f xcf x00 x97 x94 x44 x73)) O
O))))))))))
(C x31 (Some (W x9d x05 x93 x5d x28 x10 xbd x65)) (C x30 (Some (W xf7 xa4 xd2 x00 x97 x21 x48 x73)) O
(C x31 (Some (W x44 xa3 xd2 x00 x97 x20 x48 x73)) O
(C x32 (Some (W x5d xa8 xd2 x00 x97 x23 x48 x73)) O
(C x33 (Some (W xaa xa6 xd2 x00 x97 x22 x48 x73)) O
(C x34 (Some (W x2b x9e xd2 x00 x97 x1d x48 x73)) O
(C x35 (Some (W x78 x9c xd2 x00 x97 x1c x48 x73)) O
(C x36 (Some (W x91 xa1 xd2 x00 x97 x1f x48 x73)) O
(C x37 (Some (W xde x9f xd2 x00 x97 x1e x48 x73)) O
(C x38 (Some (W x5f x97 xd2 x00 x97 x19 x48 x73)) O
(C x39 (Some (W xac x95 xd2 x00 x97 x18 x48 x73)) O
O))))))))))
(C x32 (Some (W x84 x00 x93 x5d x28 x0d xbd x65)) (C x30 (Some (W xdc x31 xca x00 x97 x0f x3e x73)) O
(C x31 (Some (W x8f x33 xca x00 x97 x10 x3e x73)) O
(C x32 (Some (W x42 x35 xca x00 x97 x11 x3e x73)) O
(C x33 (Some (W xf5 x36 xca x00 x97 x12 x3e x73)) O
(C x34 (Some (W x10 x2b xca x00 x97 x0b x3e x73)) O
(C x35 (Some (W xc3 x2c xca x00 x97 x0c x3e x73)) O
(C x36 (Some (W x76 x2e xca x00 x97 x0d x3e x73)) O
(C x37 (Some (W x29 x30 xca x00 x97 x0e x3e x73)) O
(C x38 (Some (W x74 x3f xca x00 x97 x17 x3e x73)) O
(C x39 (Some (W x27 x41 xca x00 x97 x18 x3e x73)) O
O))))))))))
(C x33 (Some (W x37 x02 x93 x5d x28 x0e xbd x65)) (C x30 (Some (W xe5 x71 xcc x00 x97 x15 x41 x73)) O
(C x31 (Some (W x32 x70 xcc x00 x97 x14 x41 x73)) O
(C x32 (Some (W x7f x6e xcc x00 x97 x13 x41 x73)) O
(C x33 (Some (W xcc x6c xcc x00 x97 x12 x41 x73)) O
(C x34 (Some (W x19 x6b xcc x00 x97 x11 x41 x73)) O
(C x35 (Some (W x66 x69 xcc x00 x97 x10 x41 x73)) O
(C x36 (Some (W xb3 x67 xcc x00 x97 x0f x41 x73)) O
(C x37 (Some (W x00 x66 xcc x00 x97 x0e x41 x73)) O
(C x38 (Some (W x7d x7f xcc x00 x97 x1d x41 x73)) O
(C x39 (Some (W xca x7d xcc x00 x97 x1c x41 x73)) O
O))))))))))
(C x34 (Some (W x1e xfd x92 x5d x28 x0b xbd x65)) (C x30 (Some (W x2a x35 xc4 x00 x97 x23 x37 x73)) O
(C x31 (Some (W xdd x36 xc4 x00 x97 x24 x37 x73)) O
(C x32 (Some (W xc4 x31 xc4 x00 x97 x21 x37 x73)) O
(C x33 (Some (W x77 x33 xc4 x00 x97 x22 x37 x73)) O
(C x34 (Some (W x5e x2e xc4 x00 x97 x1f x37 x73)) O
(C x35 (Some (W x11 x30 xc4 x00 x97 x20 x37 x73)) O
(C x36 (Some (W xf8 x2a xc4 x00 x97 x1d x37 x73)) O
(C x37 (Some (W xab x2c xc4 x00 x97 x1e x37 x73)) O
(C x38 (Some (W x92 x27 xc4 x00 x97 x1b x37 x73)) O
(C x39 (Some (W x45 x29 xc4 x00 x97 x1c x37 x73)) O
O))))))))))
(C x35 (Some (W xd1 xfe x92 x5d x28 x0c xbd x65)) O
(C x36 (Some (W xb8 xf9 x92 x5d x28 x09 xbd x65)) O
(C x37 (Some (W x6b xfb x92 x5d x28 x0a xbd x65)) O
(C x38 (Some (W x52 xf6 x92 x5d x28 x07 xbd x65)) O
(C x39 (Some (W x05 xf8 x92 x5d x28 x08 xbd x65)) O
O))))))))))
(C x32 None (C x30 (Some (W x61 xea x8f x5d x28 x89 xb9 x65)) O
(C x31 (Some (W xae xe8 x8f x5d x28 x88 xb9 x65)) O
(C x32 (Some (W xfb xe6 x8f x5d x28 x87 xb9 x65)) O
(C x33 (Some (W x48 xe5 x8f x5d x28 x86 xb9 x65)) O
(C x34 (Some (W x2d xf1 x8f x5d x28 x8d xb9 x65)) O
(C x35 (Some (W x7a xef x8f x5d x28 x8c xb9 x65)) O
(C x36 (Some (W xc7 xed x8f x5d x28 x8b xb9 x65)) O
(C x37 (Some (W x14 xec x8f x5d x28 x8a xb9 x65)) O
(C x38 (Some (W xc9 xdc x8f x5d x28 x81 xb9 x65)) O
(C x39 (Some (W x16 xdb x8f x5d x28 x80 xb9 x65)) O
O))))))))))
(C x33 None (C x30 (Some (W xd8 xd0 x8c x5d x28 x03 xb6 x65)) O
(C x31 (Some (W x8b xd2 x8c x5d x28 x04 xb6 x65)) O
(C x32 (Some (W x3e xd4 x8c x5d x28 x05 xb6 x65)) O
(C x33 (Some (W xf1 xd5 x8c x5d x28 x06 xb6 x65)) O
(C x34 (Some (W xa4 xd7 x8c x5d x28 x07 xb6 x65)) O
(C x35 (Some (W x57 xd9 x8c x5d x28 x08 xb6 x65)) O
(C x36 (Some (W x0a xdb x8c x5d x28 x09 xb6 x65)) O
(C x37 (Some (W xbd xdc x8c x5d x28 x0a xb6 x65)) O
(C x38 (Some (W x40 xc3 x8c x5d x28 xfb xb5 x65)) O
(C x39 (Some (W xf3 xc4 x8c x5d x28 xfc xb5 x65)) O
O))))))))))
(C x34 None (C x30 (Some (W xb7 x73 xa1 x5d x28 x0d xce x65)) O
(C x31 (Some (W x04 x72 xa1 x5d x28 x0c xce x65)) O
(C x32 (Some (W x1d x77 xa1 x5d x28 x0f xce x65)) O
(C x33 (Some (W x6a x75 xa1 x5d x28 x0e xce x65)) O
(C x34 (Some (W xeb x6c xa1 x5d x28 x09 xce x65)) O
(C x35 (Some (W x38 x6b xa1 x5d x28 x08 xce x65)) O
(C x36 (Some (W x51 x70 xa1 x5d x28 x0b xce x65)) O
(C x37 (Some (W x9e x6e xa1 x5d x28 x0a xce x65)) O
(C x38 (Some (W x1f x66 xa1 x5d x28 x05 xce x65)) O
(C x39 (Some (W x6c x64 xa1 x5d x28 x04 xce x65)) O
O))))))))))
(C x35 None (C x30 (Some (W x2e x5a x9e x5d x28 x87 xca x65)) O
(C x31 (Some (W xe1 x5b x9e x5d x28 x88 xca x65)) O
(C x32 (Some (W xc8 x56 x9e x5d x28 x85 xca x65)) O
(C x33 (Some (W x7b x58 x9e x5d x28 x86 xca x65)) O
(C x34 (Some (W xfa x60 x9e x5d x28 x8b xca x65)) O
(C x35 (Some (W xad x62 x9e x5d x28 x8c xca x65)) O
(C x36 (Some (W x94 x5d x9e x5d x28 x89 xca x65)) O
(C x37 (Some (W x47 x5f x9e x5d x28 x8a xca x65)) O
(C x38 (Some (W x96 x4c x9e x5d x28 x7f xca x65)) O
(C x39 (Some (W x49 x4e x9e x5d x28 x80 xca x65)) O
O))))))))))
(C x36 None (C x30 (Some (W xa5 x40 x9b x5d x28 x01 xc7 x65)) O
(C x31 (Some (W xf2 x3e x9b x5d x28 x00 xc7 x65)) O
(C x32 (Some (W x3f x3d x9b x5d x28 xff xc6 x65)) O
(C x33 (Some (W x8c x3b x9b x5d x28 xfe xc6 x65)) O
(C x34 (Some (W xd9 x39 x9b x5d x28 xfd xc6 x65)) O
(C x35 (Some (W x26 x38 x9b x5d x28 xfc xc6 x65)) O
(C x36 (Some (W x73 x36 x9b x5d x28 xfb xc6 x65)) O
(C x37 (Some (W xc0 x34 x9b x5d x28 xfa xc6 x65)) O
(C x38 (Some (W x3d x4e x9b x5d x28 x09 xc7 x65)) O
(C x39 (Some (W x8a x4c x9b x5d x28 x08 xc7 x65)) O
O))))))))))
(C x37 None (C x30 (Some (W x9c x00 x99 x5d x28 xfb xc3 x65)) O
(C x31 (Some (W x4f x02 x99 x5d x28 xfc xc3 x65)) O
(C x32 (Some (W x02 x04 x99 x5d x28 xfd xc3 x65)) O
(C x33 (Some (W xb5 x05 x99 x5d x28 xfe xc3 x65)) O
(C x34 (Some (W xd0 xf9 x98 x5d x28 xf7 xc3 x65)) O
(C x35 (Some (W x83 xfb x98 x5d x28 xf8 xc3 x65)) O
(C x36 (Some (W x36 xfd x98 x5d x28 xf9 xc3 x65)) O
(C x37 (Some (W xe9 xfe x98 x5d x28 xfa xc3 x65)) O
(C x38 (Some (W x34 x0e x99 x5d x28 x03 xc4 x65)) O
(C x39 (Some (W xe7 x0f x99 x5d x28 x04 xc4 x65)) O
O))))))))))
(C x38 None (C x30 (Some (W x0b x61 x7e x5d x28 x05 xa5 x65)) O
(C x31 (Some (W x58 x5f x7e x5d x28 x04 xa5 x65)) O
(C x32 (Some (W x71 x64 x7e x5d x28 x07 xa5 x65)) O
(C x33 (Some (W xbe x62 x7e x5d x28 x06 xa5 x65)) O
(C x34 (Some (W xd7 x67 x7e x5d x28 x09 xa5 x65)) O
(C x35 (Some (W x24 x66 x7e x5d x28 x08 xa5 x65)) O
(C x36 (Some (W x3d x6b x7e x5d x28 x0b xa5 x65)) O
(C x37 (Some (W x8a x69 x7e x5d x28 x0a xa5 x65)) O
(C x38 (Some (W x73 x53 x7e x5d x28 xfd xa4 x65)) O
(C x39 (Some (W xc0 x51 x7e x5d x28 xfc xa4 x65)) O
O))))))))))
(C x39 None (C x30 (Some (W x02 x21 x7c x5d x28 xff xa1 x65)) O
(C x31 (Some (W xb5 x22 x7c x5d x28 x00 xa2 x65)) O
(C x32 (Some (W x9c x1d x7c x5d x28 xfd xa1 x65)) O
(C x33 (Some (W x4f x1f x7c x5d x28 xfe xa1 x65)) O
(C x34 (Some (W x36 x1a x7c x5d x28 xfb xa1 x65)) O
(C x35 (Some (W xe9 x1b x7c x5d x28 xfc xa1 x65)) O
(C x36 (Some (W xd0 x16 x7c x5d x28 xf9 xa1 x65)) O
(C x37 (Some (W x83 x18 x7c x5d x28 xfa xa1 x65)) O
(C x38 (Some (W x9a x2e x7c x5d x28 x07 xa2 x65)) O
(C x39 (Some (W x4d x30 x7c x5d x28 x08 xa2 x65)) O
O))))))))))
O))))))))))
O)
O)
(C x6e None (C x6f None (C x5f None (C x30 None (C x30 (Some (W x75 x43 x54 x1d xca xa4 x99 xfd)) O
(C x31 (Some (W xc2 x41 x54 x1d xca xa3 x99 xfd)) O
(C x32 (Some (W x0f x40 x54 x1d xca xa2 x99 xfd)) O
(C x33 (Some (W x5c x3e x54 x1d xca xa1 x99 xfd)) O
(C x34 (Some (W xa9 x3c x54 x1d xca xa0 x99 xfd)) O
(C x35 (Some (W xf6 x3a x54 x1d xca x9f x99 xfd)) O
(C x36 (Some (W x43 x39 x54 x1d xca x9e x99 xfd)) O
(C x37 (Some (W x90 x37 x54 x1d xca x9d x99 xfd)) O
(C x38 (Some (W x0d x51 x54 x1d xca xac x99 xfd)) O
(C x39 (Some (W x5a x4f x54 x1d xca xab x99 xfd)) O
O))))))))))
(C x31 None (C x30 (Some (W xec x29 x51 x1d xca x1e x96 xfd)) (C x30 (Some (W xd4 x20 xea xd0 x6f x2d x40 x37)) O
(C x31 (Some (W x87 x22 xea xd0 x6f x2e x40 x37)) O
(C x32 (Some (W x3a x24 xea xd0 x6f x2f x40 x37)) O
(C x33 (Some (W xed x25 xea xd0 x6f x30 x40 x37)) O
(C x34 (Some (W x08 x1a xea xd0 x6f x29 x40 x37)) O
(C x35 (Some (W xbb x1b xea xd0 x6f x2a x40 x37)) O
(C x36 (Some (W x6e x1d xea xd0 x6f x2b x40 x37)) O
(C x37 (Some (W x21 x1f xea xd0 x6f x2c x40 x37)) O
(C x38 (Some (W x3c x13 xea xd0 x6f x25 x40 x37)) O
(C x39 (Some (W xef x14 xea xd0 x6f x26 x40 x37)) O
O))))))))))
(C x31 (Some (W x9f x2b x51 x1d xca x1f x96 xfd)) (C x30 (Some (W x5d x3a xed xd0 x6f xb3 x43 x37)) O
(C x31 (Some (W xaa x38 xed xd0 x6f xb2 x43 x37)) O
(C x32 (Some (W xf7 x36 xed xd0 x6f xb1 x43 x37)) O
(C x33 (Some (W x44 x35 xed xd0 x6f xb0 x43 x37)) O
(C x34 (Some (W x91 x33 xed xd0 x6f xaf x43 x37)) O
(C x35 (Some (W xde x31 xed xd0 x6f xae x43 x37)) O
(C x36 (Some (W x2b x30 xed xd0 x6f xad x43 x37)) O
(C x37 (Some (W x78 x2e xed xd0 x6f xac x43 x37)) O
(C x38 (Some (W xc5 x2c xed xd0 x6f xab x43 x37)) O
(C x39 (Some (W x12 x2b xed xd0 x6f xaa x43 x37)) O
O))))))))))
(C x32 (Some (W x52 x2d x51 x1d xca x20 x96 xfd)) (C x30 (Some (W x86 x1d xf0 xd0 x6f x19 x47 x37)) O
(C x31 (Some (W x39 x1f xf0 xd0 x6f x1a x47 x37)) O
(C x32 (Some (W x20 x1a xf0 xd0 x6f x17 x47 x37)) O
(C x33 (Some (W xd3 x1b xf0 xd0 x6f x18 x47 x37)) O
(C x34 (Some (W x52 x24 xf0 xd0 x6f x1d x47 x37)) O
(C x35 (Some (W x05 x26 xf0 xd0 x6f x1e x47 x37)) O
(C x36 (Some (W xec x20 xf0 xd0 x6f x1b x47 x37)) O
(C x37 (Some (W x9f x22 xf0 xd0 x6f x1c x47 x37)) O
(C x38 (Some (W x1e x2b xf0 xd0 x6f x21 x47 x37)) O
(C x39 (Some (W xd1 x2c xf0 xd0 x6f x22 x47 x37)) O
O))))))))))
(C x33 (Some (W x05 x2f x51 x1d xca x21 x96 xfd)) (C x30 (Some (W x0f x37 xf3 xd0 x6f x9f x4a x37)) O
(C x31 (Some (W x5c x35 xf3 xd0 x6f x9e x4a x37)) O
(C x32 (Some (W x75 x3a xf3 xd0 x6f xa1 x4a x37)) O
(C x33 (Some (W xc2 x38 xf3 xd0 x6f xa0 x4a x37)) O
(C x34 (Some (W x43 x30 xf3 xd0 x6f x9b x4a x37)) O
(C x35 (Some (W x90 x2e xf3 xd0 x6f x9a x4a x37)) O
(C x36 (Some (W xa9 x33 xf3 xd0 x6f x9d x4a x37)) O
(C x37 (Some (W xf6 x31 xf3 xd0 x6f x9c x4a x37)) O
(C x38 (Some (W xa7 x44 xf3 xd0 x6f xa7 x4a x37)) O
(C x39 (Some (W xf4 x42 xf3 xd0 x6f xa6 x4a x37)) O
O))))))))))
(C x34 (Some (W x20 x23 x51 x1d xca x1a x96 xfd)) (C x30 (Some (W x30 x94 xde xd0 x6f x95 x32 x37)) O
(C x31 (Some (W xe3 x95 xde xd0 x6f x96 x32 x37)) O
(C x32 (Some (W x96 x97 xde xd0 x6f x97 x32 x37)) O
(C x33 (Some (W x49 x99 xde xd0 x6f x98 x32 x37)) O
(C x34 (Some (W xfc x9a xde xd0 x6f x99 x32 x37)) O
(C x35 (Some (W xaf x9c xde xd0 x6f x9a x32 x37)) O
(C x36 (Some (W x62 x9e xde xd0 x6f x9b x32 x37)) O
(C x37 (Some (W x15 xa0 xde xd0 x6f x9c x32 x37)) O
(C x38 (Some (W xc8 xa1 xde xd0 x6f x9d x32 x37)) O
(C x39 (Some (W x7b xa3 xde xd0 x6f x9e x32 x37)) O
O))))))))))
(C x35 (Some (W xd3 x24 x51 x1d xca x1b x96 xfd)) O
(C x36 (Some (W x86 x26 x51 x1d xca x1c x96 xfd)) O
(C x37 (Some (W x39 x28 x51 x1d xca x1d x96 xfd)) O
(C x38 (Some (W x84 x37 x51 x1d xca x26 x96 xfd)) O
(C x39 (Some (W x37 x39 x51 x1d xca x27 x96 xfd)) O
O))))))))))
(C x32 None (C x30 (Some (W x07 x9d x59 x1d xca x30 xa0 xfd)) O
(C x31 (Some (W x54 x9b x59 x1d xca x2f xa0 xfd)) O
(C x32 (Some (W x6d xa0 x59 x1d xca x32 xa0 xfd)) O
(C x33 (Some (W xba x9e x59 x1d xca x31 xa0 xfd)) O
(C x34 (Some (W x3b x96 x59 x1d xca x2c xa0 xfd)) O
(C x35 (Some (W x88 x94 x59 x1d xca x2b xa0 xfd)) O
(C x36 (Some (W xa1 x99 x59 x1d xca x2e xa0 xfd)) O
(C x37 (Some (W xee x97 x59 x1d xca x2d xa0 xfd)) O
(C x38 (Some (W x6f x8f x59 x1d xca x28 xa0 xfd)) O
(C x39 (Some (W xbc x8d x59 x1d xca x27 xa0 xfd)) O
O))))))))))
(C x33 None (C x30 (Some (W x7e x83 x56 x1d xca xaa x9c xfd)) O
(C x31 (Some (W x31 x85 x56 x1d xca xab x9c xfd)) O
(C x32 (Some (W x18 x80 x56 x1d xca xa8 x9c xfd)) O
(C x33 (Some (W xcb x81 x56 x1d xca xa9 x9c xfd)) O
(C x34 (Some (W x4a x8a x56 x1d xca xae x9c xfd)) O
(C x35 (Some (W xfd x8b x56 x1d xca xaf x9c xfd)) O
(C x36 (Some (W xe4 x86 x56 x1d xca xac x9c xfd)) O
(C x37 (Some (W x97 x88 x56 x1d xca xad x9c xfd)) O
(C x38 (Some (W xe6 x75 x56 x1d xca xa2 x9c xfd)) O
(C x39 (Some (W x99 x77 x56 x1d xca xa3 x9c xfd)) O
O))))))))))
(C x34 None (C x30 (Some (W xb1 x13 x48 x1d xca xac x8b xfd)) O
(C x31 (Some (W xfe x11 x48 x1d xca xab x8b xfd)) O
(C x32 (Some (W x4b x10 x48 x1d xca xaa x8b xfd)) O
(C x33 (Some (W x98 x0e x48 x1d xca xa9 x8b xfd)) O
(C x34 (Some (W x7d x1a x48 x1d xca xb0 x8b xfd)) O
(C x35 (Some (W xca x18 x48 x1d xca xaf x8b xfd)) O
(C x36 (Some (W x17 x17 x48 x1d xca xae x8b xfd)) O
(C x37 (Some (W x64 x15 x48 x1d xca xad x8b xfd)) O
(C x38 (Some (W x19 x06 x48 x1d xca xa4 x8b xfd)) O
(C x39 (Some (W x66 x04 x48 x1d xca xa3 x8b xfd)) O
O))))))))))
(C x35 None (C x30 (Some (W xa8 xd3 x45 x1d xca xa6 x88 xfd)) O
(C x31 (Some (W x5b xd5 x45 x1d xca xa7 x88 xfd)) O
(C x32 (Some (W x0e xd7 x45 x1d xca xa8 x88 xfd)) O
(C x33 (Some (W xc1 xd8 x45 x1d xca xa9 x88 xfd)) O
(C x34 (Some (W x74 xda x45 x1d xca xaa x88 xfd)) O
(C x35 (Some (W x27 xdc x45 x1d xca xab x88 xfd)) O
(C x36 (Some (W xda xdd x45 x1d xca xac x88 xfd)) O
(C x37 (Some (W x8d xdf x45 x1d xca xad x88 xfd)) O
(C x38 (Some (W x10 xc6 x45 x1d xca x9e x88 xfd)) O
(C x39 (Some (W xc3 xc7 x45 x1d xca x9f x88 xfd)) O
O))))))))))
(C x36 None (C x30 (Some (W x63 x10 x4e x1d xca x98 x92 xfd)) O
(C x31 (Some (W xb0 x0e x4e x1d xca x97 x92 xfd)) O
(C x32 (Some (W xc9 x13 x4e x1d xca x9a x92 xfd)) O
(C x33 (Some (W x16 x12 x4e x1d xca x99 x92 xfd)) O
(C x34 (Some (W x2f x17 x4e x1d xca x9c x92 xfd)) O
(C x35 (Some (W x7c x15 x4e x1d xca x9b x92 xfd)) O
(C x36 (Some (W x95 x1a x4e x1d xca x9e x92 xfd)) O
(C x37 (Some (W xe2 x18 x4e x1d xca x9d x92 xfd)) O
(C x38 (Some (W xfb x1d x4e x1d xca xa0 x92 xfd)) O
(C x39 (Some (W x48 x1c x4e x1d xca x9f x92 xfd)) O
O))))))))))
(C x37 None (C x30 (Some (W x3a x2d x4b x1d xca x32 x8f xfd)) O
(C x31 (Some (W xed x2e x4b x1d xca x33 x8f xfd)) O
(C x32 (Some (W xd4 x29 x4b x1d xca x30 x8f xfd)) O
(C x33 (Some (W x87 x2b x4b x1d xca x31 x8f xfd)) O
(C x34 (Some (W x6e x26 x4b x1d xca x2e x8f xfd)) O
(C x35 (Some (W x21 x28 x4b x1d xca x2f x8f xfd)) O
(C x36 (Some (W x08 x23 x4b x1d xca x2c x8f xfd)) O
(C x37 (Some (W xbb x24 x4b x1d xca x2d x8f xfd)) O
(C x38 (Some (W xa2 x1f x4b x1d xca x2a x8f xfd)) O
(C x39 (Some (W x55 x21 x4b x1d xca x2b x8f xfd)) O
O))))))))))
(C x38 None (C x30 (Some (W x6d xbd x3c x1d xca x34 x7e xfd)) O
(C x31 (Some (W xba xbb x3c x1d xca x33 x7e xfd)) O
(C x32 (Some (W x07 xba x3c x1d xca x32 x7e xfd)) O
(C x33 (Some (W x54 xb8 x3c x1d xca x31 x7e xfd)) O
(C x34 (Some (W xa1 xb6 x3c x1d xca x30 x7e xfd)) O
(C x35 (Some (W xee xb4 x3c x1d xca x2f x7e xfd)) O
(C x36 (Some (W x3b xb3 x3c x1d xca x2e x7e xfd)) O
(C x37 (Some (W x88 xb1 x3c x1d xca x2d x7e xfd)) O
(C x38 (Some (W xd5 xaf x3c x1d xca x2c x7e xfd)) O
(C x39 (Some (W x22 xae x3c x1d xca x2b x7e xfd)) O
O))))))))))
(C x39 None (C x30 (Some (W xe4 xa3 x39 x1d xca xae x7a xfd)) O
(C x31 (Some (W x97 xa5 x39 x1d xca xaf x7a xfd)) O
(C x32 (Some (W x4a xa7 x39 x1d xca xb0 x7a xfd)) O
(C x33 (Some (W xfd xa8 x39 x1d xca xb1 x7a xfd)) O
(C x34 (Some (W x18 x9d x39 x1d xca xaa x7a xfd)) O
(C x35 (Some (W xcb x9e x39 x1d xca xab x7a xfd)) O
(C x36 (Some (W x7e xa0 x39 x1d xca xac x7a xfd)) O
(C x37 (Some (W x31 xa2 x39 x1d xca xad x7a xfd)) O
(C x38 (Some (W x4c x96 x39 x1d xca xa6 x7a xfd)) O
(C x39 (Some (W xff x97 x39 x1d xca xa7 x7a xfd)) O
O))))))))))
O))))))))))
O)
O)
(C x72 None (C x61 None (C x5f None (C x30 None (C x30 (Some (W xeb xb7 x1c x76 x80 xb9 xf7 x18)) O
(C x31 (Some (W x38 xb6 x1c x76 x80 xb8 xf7 x18)) O
(C x32 (Some (W x51 xbb x1c x76 x80 xbb xf7 x18)) O
(C x33 (Some (W x9e xb9 x1c x76 x80 xba xf7 x18)) O
(C x34 (Some (W xb7 xbe x1c x76 x80 xbd xf7 x18)) O
(C x35 (Some (W x04 xbd x1c x76 x80 xbc xf7 x18)) O
(C x36 (Some (W x1d xc2 x1c x76 x80 xbf xf7 x18)) O
(C x37 (Some (W x6a xc0 x1c x76 x80 xbe xf7 x18)) O
(C x38 (Some (W x53 xaa x1c x76 x80 xb1 xf7 x18)) O
(C x39 (Some (W xa0 xa8 x1c x76 x80 xb0 xf7 x18)) O
O))))))))))
(C x31 None (C x30 (Some (W x62 x9e x19 x76 x80 x33 xf4 x18)) (C x30 (Some (W x56 x05 x88 xad x48 xd5 x91 x80)) O
(C x31 (Some (W x09 x07 x88 xad x48 xd6 x91 x80)) O
(C x32 (Some (W xf0 x01 x88 xad x48 xd3 x91 x80)) O
(C x33 (Some (W xa3 x03 x88 xad x48 xd4 x91 x80)) O
(C x34 (Some (W x22 x0c x88 xad x48 xd9 x91 x80)) O
(C x35 (Some (W xd5 x0d x88 xad x48 xda x91 x80)) O
(C x36 (Some (W xbc x08 x88 xad x48 xd7 x91 x80)) O
(C x37 (Some (W x6f x0a x88 xad x48 xd8 x91 x80)) O
(C x38 (Some (W xee x12 x88 xad x48 xdd x91 x80)) O
(C x39 (Some (W xa1 x14 x88 xad x48 xde x91 x80)) O
O))))))))))
(C x31 (Some (W x15 xa0 x19 x76 x80 x34 xf4 x18)) (C x30 (Some (W xdf x1e x8b xad x48 x5b x95 x80)) O
(C x31 (Some (W x2c x1d x8b xad x48 x5a x95 x80)) O
(C x32 (Some (W x45 x22 x8b xad x48 x5d x95 x80)) O
(C x33 (Some (W x92 x20 x8b xad x48 x5c x95 x80)) O
(C x34 (Some (W x13 x18 x8b xad x48 x57 x95 x80)) O
(C x35 (Some (W x60 x16 x8b xad x48 x56 x95 x80)) O
(C x36 (Some (W x79 x1b x8b xad x48 x59 x95 x80)) O
(C x37 (Some (W xc6 x19 x8b xad x48 x58 x95 x80)) O
(C x38 (Some (W x77 x2c x8b xad x48 x63 x95 x80)) O
(C x39 (Some (W xc4 x2a x8b xad x48 x62 x95 x80)) O
O))))))))))
(C x32 (Some (W xfc x9a x19 x76 x80 x31 xf4 x18)) (C x30 (Some (W xa4 x08 x82 xad x48 xe9 x8a x80)) O
(C x31 (Some (W x57 x0a x82 xad x48 xea x8a x80)) O
(C x32 (Some (W x0a x0c x82 xad x48 xeb x8a x80)) O
(C x33 (Some (W xbd x0d x82 xad x48 xec x8a x80)) O
(C x34 (Some (W xd8 x01 x82 xad x48 xe5 x8a x80)) O
(C x35 (Some (W x8b x03 x82 xad x48 xe6 x8a x80)) O
(C x36 (Some (W x3e x05 x82 xad x48 xe7 x8a x80)) O
(C x37 (Some (W xf1 x06 x82 xad x48 xe8 x8a x80)) O
(C x38 (Some (W x0c xfb x81 xad x48 xe1 x8a x80)) O
(C x39 (Some (W xbf xfc x81 xad x48 xe2 x8a x80)) O
O))))))))))
(C x33 (Some (W xaf x9c x19 x76 x80 x32 xf4 x18)) (C x30 (Some (W x2d x22 x85 xad x48 x6f x8e x80)) O
(C x31 (Some (W x7a x20 x85 xad x48 x6e x8e x80)) O
(C x32 (Some (W xc7 x1e x85 xad x48 x6d x8e x80)) O
(C x33 (Some (W x14 x1d x85 xad x48 x6c x8e x80)) O
(C x34 (Some (W x61 x1b x85 xad x48 x6b x8e x80)) O
(C x35 (Some (W xae x19 x85 xad x48 x6a x8e x80)) O
(C x36 (Some (W xfb x17 x85 xad x48 x69 x8e x80)) O
(C x37 (Some (W x48 x16 x85 xad x48 x68 x8e x80)) O
(C x38 (Some (W x95 x14 x85 xad x48 x67 x8e x80)) O
(C x39 (Some (W xe2 x12 x85 xad x48 x66 x8e x80)) O
O))))))))))
(C x34 (Some (W x96 x97 x19 x76 x80 x2f xf4 x18)) (C x30 (Some (W x12 xaf x7c xad x48 x5d x84 x80)) O
(C x31 (Some (W xc5 xb0 x7c xad x48 x5e x84 x80)) O
(C x32 (Some (W xac xab x7c xad x48 x5b x84 x80)) O
(C x33 (Some (W x5f xad x7c xad x48 x5c x84 x80)) O
(C x34 (Some (W x46 xa8 x7c xad x48 x59 x84 x80)) O
(C x35 (Some (W xf9 xa9 x7c xad x48 x5a x84 x80)) O
(C x36 (Some (W xe0 xa4 x7c xad x48 x57 x84 x80)) O
(C x37 (Some (W x93 xa6 x7c xad x48 x58 x84 x80)) O
(C x38 (Some (W xaa xbc x7c xad x48 x65 x84 x80)) O
(C x39 (Some (W x5d xbe x7c xad x48 x66 x84 x80)) O
O))))))))))
(C x35 (Some (W x49 x99 x19 x76 x80 x30 xf4 x18)) O
(C x36 (Some (W x30 x94 x19 x76 x80 x2d xf4 x18)) O
(C x37 (Some (W xe3 x95 x19 x76 x80 x2e xf4 x18)) O
(C x38 (Some (W xfa xab x19 x76 x80 x3b xf4 x18)) O
(C x39 (Some (W xad xad x19 x76 x80 x3c xf4 x18)) O
O))))))))))
(C x32 None (C x30 (Some (W xd9 x84 x16 x76 x80 xad xf0 x18)) O
(C x31 (Some (W x26 x83 x16 x76 x80 xac xf0 x18)) O
(C x32 (Some (W x73 x81 x16 x76 x80 xab xf0 x18)) O
(C x33 (Some (W xc0 x7f x16 x76 x80 xaa xf0 x18)) O
(C x34 (Some (W xa5 x8b x16 x76 x80 xb1 xf0 x18)) O
(C x35 (Some (W xf2 x89 x16 x76 x80 xb0 xf0 x18)) O
(C x36 (Some (W x3f x88 x16 x76 x80 xaf xf0 x18)) O
(C x37 (Some (W x8c x86 x16 x76 x80 xae xf0 x18)) O
(C x38 (Some (W x71 x92 x16 x76 x80 xb5 xf0 x18)) O
(C x39 (Some (W xbe x90 x16 x76 x80 xb4 xf0 x18)) O
O))))))))))
(C x33 None (C x30 (Some (W xd0 x44 x14 x76 x80 xa7 xed x18)) O
(C x31 (Some (W x83 x46 x14 x76 x80 xa8 xed x18)) O
(C x32 (Some (W x36 x48 x14 x76 x80 xa9 xed x18)) O
(C x33 (Some (W xe9 x49 x14 x76 x80 xaa xed x18)) O
(C x34 (Some (W x9c x4b x14 x76 x80 xab xed x18)) O
(C x35 (Some (W x4f x4d x14 x76 x80 xac xed x18)) O
(C x36 (Some (W x02 x4f x14 x76 x80 xad xed x18)) O
(C x37 (Some (W xb5 x50 x14 x76 x80 xae xed x18)) O
(C x38 (Some (W x68 x52 x14 x76 x80 xaf xed x18)) O
(C x39 (Some (W x1b x54 x14 x76 x80 xb0 xed x18)) O
O))))))))))
(C x34 None (C x30 (Some (W x2f x0e x28 x76 x80 x31 x05 x19)) O
(C x31 (Some (W x7c x0c x28 x76 x80 x30 x05 x19)) O
(C x32 (Some (W x95 x11 x28 x76 x80 x33 x05 x19)) O
(C x33 (Some (W xe2 x0f x28 x76 x80 x32 x05 x19)) O
(C x34 (Some (W x63 x07 x28 x76 x80 x2d x05 x19)) O
(C x35 (Some (W xb0 x05 x28 x76 x80 x2c x05 x19)) O
(C x36 (Some (W xc9 x0a x28 x76 x80 x2f x05 x19)) O
(C x37 (Some (W x16 x09 x28 x76 x80 x2e x05 x19)) O
(C x38 (Some (W xc7 x1b x28 x76 x80 x39 x05 x19)) O
(C x39 (Some (W x14 x1a x28 x76 x80 x38 x05 x19)) O
O))))))))))
(C x35 None (C x30 (Some (W xa6 xf4 x24 x76 x80 xab x01 x19)) O
(C x31 (Some (W x59 xf6 x24 x76 x80 xac x01 x19)) O
(C x32 (Some (W x40 xf1 x24 x76 x80 xa9 x01 x19)) O
(C x33 (Some (W xf3 xf2 x24 x76 x80 xaa x01 x19)) O
(C x34 (Some (W x72 xfb x24 x76 x80 xaf x01 x19)) O
(C x35 (Some (W x25 xfd x24 x76 x80 xb0 x01 x19)) O
(C x36 (Some (W x0c xf8 x24 x76 x80 xad x01 x19)) O
(C x37 (Some (W xbf xf9 x24 x76 x80 xae x01 x19)) O
(C x38 (Some (W x3e x02 x25 x76 x80 xb3 x01 x19)) O
(C x39 (Some (W xf1 x03 x25 x76 x80 xb4 x01 x19)) O
O))))))))))
(C x36 None (C x30 (Some (W x7d x11 x22 x76 x80 x45 xfe x18)) O
(C x31 (Some (W xca x0f x22 x76 x80 x44 xfe x18)) O
(C x32 (Some (W x17 x0e x22 x76 x80 x43 xfe x18)) O
(C x33 (Some (W x64 x0c x22 x76 x80 x42 xfe x18)) O
(C x34 (Some (W xb1 x0a x22 x76 x80 x41 xfe x18)) O
(C x35 (Some (W xfe x08 x22 x76 x80 x40 xfe x18)) O
(C x36 (Some (W x4b x07 x22 x76 x80 x3f xfe x18)) O
(C x37 (Some (W x98 x05 x22 x76 x80 x3e xfe x18)) O
(C x38 (Some (W xe5 x03 x22 x76 x80 x3d xfe x18)) O
(C x39 (Some (W x32 x02 x22 x76 x80 x3c xfe x18)) O
O))))))))))
(C x37 None (C x30 (Some (W x74 xd1 x1f x76 x80 x3f xfb x18)) O
(C x31 (Some (W x27 xd3 x1f x76 x80 x40 xfb x18)) O
(C x32 (Some (W xda xd4 x1f x76 x80 x41 xfb x18)) O
(C x33 (Some (W x8d xd6 x1f x76 x80 x42 xfb x18)) O
(C x34 (Some (W xa8 xca x1f x76 x80 x3b xfb x18)) O
(C x35 (Some (W x5b xcc x1f x76 x80 x3c xfb x18)) O
(C x36 (Some (W x0e xce x1f x76 x80 x3d xfb x18)) O
(C x37 (Some (W xc1 xcf x1f x76 x80 x3e xfb x18)) O
(C x38 (Some (W xdc xc3 x1f x76 x80 x37 xfb x18)) O
(C x39 (Some (W x8f xc5 x1f x76 x80 x38 xfb x18)) O
O))))))))))
(C x38 None (C x30 (Some (W x73 x64 x33 x76 x80 xa9 x12 x19)) O
(C x31 (Some (W xc0 x62 x33 x76 x80 xa8 x12 x19)) O
(C x32 (Some (W xd9 x67 x33 x76 x80 xab x12 x19)) O
(C x33 (Some (W x26 x66 x33 x76 x80 xaa x12 x19)) O
(C x34 (Some (W x3f x6b x33 x76 x80 xad x12 x19)) O
(C x35 (Some (W x8c x69 x33 x76 x80 xac x12 x19)) O
(C x36 (Some (W xa5 x6e x33 x76 x80 xaf x12 x19)) O
(C x37 (Some (W xf2 x6c x33 x76 x80 xae x12 x19)) O
(C x38 (Some (W x0b x72 x33 x76 x80 xb1 x12 x19)) O
(C x39 (Some (W x58 x70 x33 x76 x80 xb0 x12 x19)) O
O))))))))))
(C x39 None (C x30 (Some (W x4a x81 x30 x76 x80 x43 x0f x19)) O
(C x31 (Some (W xfd x82 x30 x76 x80 x44 x0f x19)) O
(C x32 (Some (W xe4 x7d x30 x76 x80 x41 x0f x19)) O
(C x33 (Some (W x97 x7f x30 x76 x80 x42 x0f x19)) O
(C x34 (Some (W x7e x7a x30 x76 x80 x3f x0f x19)) O
(C x35 (Some (W x31 x7c x30 x76 x80 x40 x0f x19)) O
(C x36 (Some (W x18 x77 x30 x76 x80 x3d x0f x19)) O
(C x37 (Some (W xcb x78 x30 x76 x80 x3e x0f x19)) O
(C x38 (Some (W xb2 x73 x30 x76 x80 x3b x0f x19)) O
(C x39 (Some (W x65 x75 x30 x76 x80 x3c x0f x19)) O
O))))))))))
O))))))))))
O)
O)
O)))
O)
O)
(C x6b None (C x79 None (C x5f None (C x61 None (C x72 None (C x65 None (C x61 None (C x30 None (C x5f None (C x30 None (C x30 (Some (W xef x44 xf1 x2b xc9 xd0 xd2 x13)) O
(C x31 (Some (W x3c x43 xf1 x2b xc9 xcf xd2 x13)) O
(C x32 (Some (W x55 x48 xf1 x2b xc9 xd2 xd2 x13)) O
(C x33 (Some (W xa2 x46 xf1 x2b xc9 xd1 xd2 x13)) O
(C x34 (Some (W x23 x3e xf1 x2b xc9 xcc xd2 x13)) O
(C x35 (Some (W x70 x3c xf1 x2b xc9 xcb xd2 x13)) O
(C x36 (Some (W x89 x41 xf1 x2b xc9 xce xd2 x13)) O
(C x37 (Some (W xd6 x3f xf1 x2b xc9 xcd xd2 x13)) O
(C x38 (Some (W x87 x52 xf1 x2b xc9 xd8 xd2 x13)) O
(C x39 (Some (W xd4 x50 xf1 x2b xc9 xd7 xd2 x13)) O
O))))))))))
O)
O)
(C x31 None (C x5f None (C x30 None (C x30 (Some (W x1e xef xcc x8e xcf xda x8c x41)) O
(C x31 (Some (W xd1 xf0 xcc x8e xcf xdb x8c x41)) O
(C x32 (Some (W xb8 xeb xcc x8e xcf xd8 x8c x41)) O
(C x33 (Some (W x6b xed xcc x8e xcf xd9 x8c x41)) O
(C x34 (Some (W xea xf5 xcc x8e xcf xde x8c x41)) O
(C x35 (Some (W x9d xf7 xcc x8e xcf xdf x8c x41)) O
(C x36 (Some (W x84 xf2 xcc x8e xcf xdc x8c x41)) O
(C x37 (Some (W x37 xf4 xcc x8e xcf xdd x8c x41)) O
(C x38 (Some (W x86 xe1 xcc x8e xcf xd2 x8c x41)) O
(C x39 (Some (W x39 xe3 xcc x8e xcf xd3 x8c x41)) O
O))))))))))
O)
O)
(C x32 None (C x5f None (C x30 None (C x30 (Some (W x11 xcc x7b x47 xb6 x1c x58 xe8)) O
(C x31 (Some (W x5e xca x7b x47 xb6 x1b x58 xe8)) O
(C x32 (Some (W xab xc8 x7b x47 xb6 x1a x58 xe8)) O
(C x33 (Some (W xf8 xc6 x7b x47 xb6 x19 x58 xe8)) O
(C x34 (Some (W xdd xd2 x7b x47 xb6 x20 x58 xe8)) O
(C x35 (Some (W x2a xd1 x7b x47 xb6 x1f x58 xe8)) O
(C x36 (Some (W x77 xcf x7b x47 xb6 x1e x58 xe8)) O
(C x37 (Some (W xc4 xcd x7b x47 xb6 x1d x58 xe8)) O
(C x38 (Some (W x79 xbe x7b x47 xb6 x14 x58 xe8)) O
(C x39 (Some (W xc6 xbc x7b x47 xb6 x13 x58 xe8)) O
O))))))))))
O)
O)
(C x33 None (C x5f None (C x30 None (C x30 (Some (W x40 x84 x88 xe2 xbd xc6 x50 x3e)) O
(C x31 (Some (W xf3 x85 x88 xe2 xbd xc7 x50 x3e)) O
(C x32 (Some (W xa6 x87 x88 xe2 xbd xc8 x50 x3e)) O
(C x33 (Some (W x59 x89 x88 xe2 xbd xc9 x50 x3e)) O
(C x34 (Some (W x0c x8b x88 xe2 xbd xca x50 x3e)) O
(C x35 (Some (W xbf x8c x88 xe2 xbd xcb x50 x3e)) O
(C x36 (Some (W x72 x8e x88 xe2 xbd xcc x50 x3e)) O
(C x37 (Some (W x25 x90 x88 xe2 xbd xcd x50 x3e)) O
(C x38 (Some (W xd8 x91 x88 xe2 xbd xce x50 x3e)) O
(C x39 (Some (W x8b x93 x88 xe2 xbd xcf x50 x3e)) O
O))))))))))
O)
O)
(C x34 None (C x5f None (C x30 None (C x30 (Some (W xd3 xdd x93 xd5 xa5 xc8 xe7 x0f)) O
(C x31 (Some (W x20 xdc x93 xd5 xa5 xc7 xe7 x0f)) O
(C x32 (Some (W x39 xe1 x93 xd5 xa5 xca xe7 x0f)) O
(C x33 (Some (W x86 xdf x93 xd5 xa5 xc9 xe7 x0f)) O
(C x34 (Some (W x9f xe4 x93 xd5 xa5 xcc xe7 x0f)) O
(C x35 (Some (W xec xe2 x93 xd5 xa5 xcb xe7 x0f)) O
(C x36 (Some (W x05 xe8 x93 xd5 xa5 xce xe7 x0f)) O
(C x37 (Some (W x52 xe6 x93 xd5 xa5 xcd xe7 x0f)) O
(C x38 (Some (W x6b xeb x93 xd5 xa5 xd0 xe7 x0f)) O
(C x39 (Some (W xb8 xe9 x93 xd5 xa5 xcf xe7 x0f)) O
O))))))))))
O)
O)
(C x35 None (C x5f None (C x30 None (C x30 (Some (W xe2 x21 xa0 xe4 xaf x12 x9e xba)) O
(C x31 (Some (W x95 x23 xa0 xe4 xaf x13 x9e xba)) O
(C x32 (Some (W x7c x1e xa0 xe4 xaf x10 x9e xba)) O
(C x33 (Some (W x2f x20 xa0 xe4 xaf x11 x9e xba)) O
(C x34 (Some (W x16 x1b xa0 xe4 xaf x0e x9e xba)) O
(C x35 (Some (W xc9 x1c xa0 xe4 xaf x0f x9e xba)) O
(C x36 (Some (W xb0 x17 xa0 xe4 xaf x0c x9e xba)) O
(C x37 (Some (W x63 x19 xa0 xe4 xaf x0d x9e xba)) O
(C x38 (Some (W x7a x2f xa0 xe4 xaf x1a x9e xba)) O
(C x39 (Some (W x2d x31 xa0 xe4 xaf x1b x9e xba)) O
O))))))))))
O)
O)
O))))))
O)
O)
O)
O)
O)
O)
O))
(C x77 None (C x68 None (C x6c None (C x5f None (C x65 None (C x78 None (C x5f None (C x30 None (C x30 (Some (W x37 xef xa6 x4a x87 x78 x37 xcf)) O
(C x31 (Some (W x84 xed xa6 x4a x87 x77 x37 xcf)) O
(C x32 (Some (W x9d xf2 xa6 x4a x87 x7a x37 xcf)) O
(C x33 (Some (W xea xf0 xa6 x4a x87 x79 x37 xcf)) O
(C x34 (Some (W x6b xe8 xa6 x4a x87 x74 x37 xcf)) O
(C x35 (Some (W xb8 xe6 xa6 x4a x87 x73 x37 xcf)) O
(C x36 (Some (W xd1 xeb xa6 x4a x87 x76 x37 xcf)) O
(C x37 (Some (W x1e xea xa6 x4a x87 x75 x37 xcf)) O
(C x38 (Some (W x9f xe1 xa6 x4a x87 x70 x37 xcf)) O
(C x39 (Some (W xec xdf xa6 x4a x87 x6f x37 xcf)) O
O))))))))))
(C x31 None (C x30 (Some (W xae xd5 xa3 x4a x87 xf2 x33 xcf)) (C x30 (Some (W x7a xfb x63 xd4 xe3 xb9 x1a xb9)) O
(C x31 (Some (W x2d xfd x63 xd4 xe3 xba x1a xb9)) O
(C x32 (Some (W x14 xf8 x63 xd4 xe3 xb7 x1a xb9)) O
(C x33 (Some (W xc7 xf9 x63 xd4 xe3 xb8 x1a xb9)) O
(C x34 (Some (W xae xf4 x63 xd4 xe3 xb5 x1a xb9)) O
(C x35 (Some (W x61 xf6 x63 xd4 xe3 xb6 x1a xb9)) O
(C x36 (Some (W x48 xf1 x63 xd4 xe3 xb3 x1a xb9)) O
(C x37 (Some (W xfb xf2 x63 xd4 xe3 xb4 x1a xb9)) O
(C x38 (Some (W xe2 xed x63 xd4 xe3 xb1 x1a xb9)) O
(C x39 (Some (W x95 xef x63 xd4 xe3 xb2 x1a xb9)) O
O))))))))))
(C x31 (Some (W x61 xd7 xa3 x4a x87 xf3 x33 xcf)) (C x30 (Some (W xa3 xde x66 xd4 xe3 x1f x1e xb9)) O
(C x31 (Some (W xf0 xdc x66 xd4 xe3 x1e x1e xb9)) O
(C x32 (Some (W x09 xe2 x66 xd4 xe3 x21 x1e xb9)) O
(C x33 (Some (W x56 xe0 x66 xd4 xe3 x20 x1e xb9)) O
(C x34 (Some (W x6f xe5 x66 xd4 xe3 x23 x1e xb9)) O
(C x35 (Some (W xbc xe3 x66 xd4 xe3 x22 x1e xb9)) O
(C x36 (Some (W xd5 xe8 x66 xd4 xe3 x25 x1e xb9)) O
(C x37 (Some (W x22 xe7 x66 xd4 xe3 x24 x1e xb9)) O
(C x38 (Some (W x3b xec x66 xd4 xe3 x27 x1e xb9)) O
(C x39 (Some (W x88 xea x66 xd4 xe3 x26 x1e xb9)) O
O))))))))))
(C x32 (Some (W x48 xd2 xa3 x4a x87 xf0 x33 xcf)) (C x30 (Some (W xe8 xa1 x5e xd4 xe3 x2d x14 xb9)) O
(C x31 (Some (W x9b xa3 x5e xd4 xe3 x2e x14 xb9)) O
(C x32 (Some (W x4e xa5 x5e xd4 xe3 x2f x14 xb9)) O
(C x33 (Some (W x01 xa7 x5e xd4 xe3 x30 x14 xb9)) O
(C x34 (Some (W xb4 xa8 x5e xd4 xe3 x31 x14 xb9)) O
(C x35 (Some (W x67 xaa x5e xd4 xe3 x32 x14 xb9)) O
(C x36 (Some (W x1a xac x5e xd4 xe3 x33 x14 xb9)) O
(C x37 (Some (W xcd xad x5e xd4 xe3 x34 x14 xb9)) O
(C x38 (Some (W x50 x94 x5e xd4 xe3 x25 x14 xb9)) O
(C x39 (Some (W x03 x96 x5e xd4 xe3 x26 x14 xb9)) O
O))))))))))
(C x33 (Some (W xfb xd3 xa3 x4a x87 xf1 x33 xcf)) (C x30 (Some (W xf1 xe1 x60 xd4 xe3 x33 x17 xb9)) O
(C x31 (Some (W x3e xe0 x60 xd4 xe3 x32 x17 xb9)) O
(C x32 (Some (W x8b xde x60 xd4 xe3 x31 x17 xb9)) O
(C x33 (Some (W xd8 xdc x60 xd4 xe3 x30 x17 xb9)) O
(C x34 (Some (W xbd xe8 x60 xd4 xe3 x37 x17 xb9)) O
(C x35 (Some (W x0a xe7 x60 xd4 xe3 x36 x17 xb9)) O
(C x36 (Some (W x57 xe5 x60 xd4 xe3 x35 x17 xb9)) O
(C x37 (Some (W xa4 xe3 x60 xd4 xe3 x34 x17 xb9)) O
(C x38 (Some (W x59 xd4 x60 xd4 xe3 x2b x17 xb9)) O
(C x39 (Some (W xa6 xd2 x60 xd4 xe3 x2a x17 xb9)) O
O))))))))))
(C x34 (Some (W x7a xdc xa3 x4a x87 xf6 x33 xcf)) (C x30 (Some (W xbe x51 x6f xd4 xe3 x31 x28 xb9)) O
(C x31 (Some (W x71 x53 x6f xd4 xe3 x32 x28 xb9)) O
(C x32 (Some (W x58 x4e x6f xd4 xe3 x2f x28 xb9)) O
(C x33 (Some (W x0b x50 x6f xd4 xe3 x30 x28 xb9)) O
(C x34 (Some (W x8a x58 x6f xd4 xe3 x35 x28 xb9)) O
(C x35 (Some (W x3d x5a x6f xd4 xe3 x36 x28 xb9)) O
(C x36 (Some (W x24 x55 x6f xd4 xe3 x33 x28 xb9)) O
(C x37 (Some (W xd7 x56 x6f xd4 xe3 x34 x28 xb9)) O
(C x38 (Some (W x26 x44 x6f xd4 xe3 x29 x28 xb9)) O
(C x39 (Some (W xd9 x45 x6f xd4 xe3 x2a x28 xb9)) O
O))))))))))
(C x35 (Some (W x2d xde xa3 x4a x87 xf7 x33 xcf)) O
(C x36 (Some (W x14 xd9 xa3 x4a x87 xf4 x33 xcf)) O
(C x37 (Some (W xc7 xda xa3 x4a x87 xf5 x33 xcf)) O
(C x38 (Some (W x16 xc8 xa3 x4a x87 xea x33 xcf)) O
(C x39 (Some (W xc9 xc9 xa3 x4a x87 xeb x33 xcf)) O
O))))))))))
(C x32 None (C x30 (Some (W x25 xbc xa0 x4a x87 x6c x30 xcf)) O
(C x31 (Some (W x72 xba xa0 x4a x87 x6b x30 xcf)) O
(C x32 (Some (W xbf xb8 xa0 x4a x87 x6a x30 xcf)) O
(C x33 (Some (W x0c xb7 xa0 x4a x87 x69 x30 xcf)) O
(C x34 (Some (W x59 xb5 xa0 x4a x87 x68 x30 xcf)) O
(C x35 (Some (W xa6 xb3 xa0 x4a x87 x67 x30 xcf)) O
(C x36 (Some (W xf3 xb1 xa0 x4a x87 x66 x30 xcf)) O
(C x37 (Some (W x40 xb0 xa0 x4a x87 x65 x30 xcf)) O
(C x38 (Some (W xbd xc9 xa0 x4a x87 x74 x30 xcf)) O
(C x39 (Some (W x0a xc8 xa0 x4a x87 x73 x30 xcf)) O
O))))))))))
(C x33 None (C x30 (Some (W x1c x7c x9e x4a x87 x66 x2d xcf)) O
(C x31 (Some (W xcf x7d x9e x4a x87 x67 x2d xcf)) O
(C x32 (Some (W x82 x7f x9e x4a x87 x68 x2d xcf)) O
(C x33 (Some (W x35 x81 x9e x4a x87 x69 x2d xcf)) O
(C x34 (Some (W x50 x75 x9e x4a x87 x62 x2d xcf)) O
(C x35 (Some (W x03 x77 x9e x4a x87 x63 x2d xcf)) O
(C x36 (Some (W xb6 x78 x9e x4a x87 x64 x2d xcf)) O
(C x37 (Some (W x69 x7a x9e x4a x87 x65 x2d xcf)) O
(C x38 (Some (W xb4 x89 x9e x4a x87 x6e x2d xcf)) O
(C x39 (Some (W x67 x8b x9e x4a x87 x6f x2d xcf)) O
O))))))))))
(C x34 None (C x30 (Some (W x93 x62 x9b x4a x87 xe0 x29 xcf)) O
(C x31 (Some (W xe0 x60 x9b x4a x87 xdf x29 xcf)) O
(C x32 (Some (W xf9 x65 x9b x4a x87 xe2 x29 xcf)) O
(C x33 (Some (W x46 x64 x9b x4a x87 xe1 x29 xcf)) O
(C x34 (Some (W x5f x69 x9b x4a x87 xe4 x29 xcf)) O
(C x35 (Some (W xac x67 x9b x4a x87 xe3 x29 xcf)) O
(C x36 (Some (W xc5 x6c x9b x4a x87 xe6 x29 xcf)) O
(C x37 (Some (W x12 x6b x9b x4a x87 xe5 x29 xcf)) O
(C x38 (Some (W x2b x70 x9b x4a x87 xe8 x29 xcf)) O
(C x39 (Some (W x78 x6e x9b x4a x87 xe7 x29 xcf)) O
O))))))))))
(C x35 None (C x30 (Some (W x6a x7f x98 x4a x87 x7a x26 xcf)) O
(C x31 (Some (W x1d x81 x98 x4a x87 x7b x26 xcf)) O
(C x32 (Some (W x04 x7c x98 x4a x87 x78 x26 xcf)) O
(C x33 (Some (W xb7 x7d x98 x4a x87 x79 x26 xcf)) O
(C x34 (Some (W x9e x78 x98 x4a x87 x76 x26 xcf)) O
(C x35 (Some (W x51 x7a x98 x4a x87 x77 x26 xcf)) O
(C x36 (Some (W x38 x75 x98 x4a x87 x74 x26 xcf)) O
(C x37 (Some (W xeb x76 x98 x4a x87 x75 x26 xcf)) O
(C x38 (Some (W xd2 x71 x98 x4a x87 x72 x26 xcf)) O
(C x39 (Some (W x85 x73 x98 x4a x87 x73 x26 xcf)) O
O))))))))))
(C x36 None (C x30 (Some (W xe1 x65 x95 x4a x87 xf4 x22 xcf)) O
(C x31 (Some (W x2e x64 x95 x4a x87 xf3 x22 xcf)) O
(C x32 (Some (W x7b x62 x95 x4a x87 xf2 x22 xcf)) O
(C x33 (Some (W xc8 x60 x95 x4a x87 xf1 x22 xcf)) O
(C x34 (Some (W xad x6c x95 x4a x87 xf8 x22 xcf)) O
(C x35 (Some (W xfa x6a x95 x4a x87 xf7 x22 xcf)) O
(C x36 (Some (W x47 x69 x95 x4a x87 xf6 x22 xcf)) O
(C x37 (Some (W x94 x67 x95 x4a x87 xf5 x22 xcf)) O
(C x38 (Some (W x49 x58 x95 x4a x87 xec x22 xcf)) O
(C x39 (Some (W x96 x56 x95 x4a x87 xeb x22 xcf)) O
O))))))))))
(C x37 None (C x30 (Some (W x58 x4c x92 x4a x87 x6e x1f xcf)) O
(C x31 (Some (W x0b x4e x92 x4a x87 x6f x1f xcf)) O
(C x32 (Some (W xbe x4f x92 x4a x87 x70 x1f xcf)) O
(C x33 (Some (W x71 x51 x92 x4a x87 x71 x1f xcf)) O
(C x34 (Some (W x24 x53 x92 x4a x87 x72 x1f xcf)) O
(C x35 (Some (W xd7 x54 x92 x4a x87 x73 x1f xcf)) O
(C x36 (Some (W x8a x56 x92 x4a x87 x74 x1f xcf)) O
(C x37 (Some (W x3d x58 x92 x4a x87 x75 x1f xcf)) O
(C x38 (Some (W xc0 x3e x92 x4a x87 x66 x1f xcf)) O
(C x39 (Some (W x73 x40 x92 x4a x87 x67 x1f xcf)) O
O))))))))))
(C x38 None (C x30 (Some (W x4f x0c x90 x4a x87 x68 x1c xcf)) O
(C x31 (Some (W x9c x0a x90 x4a x87 x67 x1c xcf)) O
(C x32 (Some (W xb5 x0f x90 x4a x87 x6a x1c xcf)) O
(C x33 (Some (W x02 x0e x90 x4a x87 x69 x1c xcf)) O
(C x34 (Some (W x83 x05 x90 x4a x87 x64 x1c xcf)) O
(C x35 (Some (W xd0 x03 x90 x4a x87 x63 x1c xcf)) O
(C x36 (Some (W xe9 x08 x90 x4a x87 x66 x1c xcf)) O
(C x37 (Some (W x36 x07 x90 x4a x87 x65 x1c xcf)) O
(C x38 (Some (W xe7 x19 x90 x4a x87 x70 x1c xcf)) O
(C x39 (Some (W x34 x18 x90 x4a x87 x6f x1c xcf)) O
O))))))))))
(C x39 None (C x30 (Some (W xc6 xf2 x8c x4a x87 xe2 x18 xcf)) O
(C x31 (Some (W x79 xf4 x8c x4a x87 xe3 x18 xcf)) O
(C x32 (Some (W x60 xef x8c x4a x87 xe0 x18 xcf)) O
(C x33 (Some (W x13 xf1 x8c x4a x87 xe1 x18 xcf)) O
(C x34 (Some (W x92 xf9 x8c x4a x87 xe6 x18 xcf)) O
(C x35 (Some (W x45 xfb x8c x4a x87 xe7 x18 xcf)) O
(C x36 (Some (W x2c xf6 x8c x4a x87 xe4 x18 xcf)) O
(C x37 (Some (W xdf xf7 x8c x4a x87 xe5 x18 xcf)) O
(C x38 (Some (W x5e x00 x8d x4a x87 xea x18 xcf)) O
(C x39 (Some (W x11 x02 x8d x4a x87 xeb x18 xcf)) O
O))))))))))
O))))))))))
O)
O)
(C x6e None (C x6f None (C x5f None (C x30 None (C x30 (Some (W xf1 xd9 xc3 xe9 xc1 xcf xae x64)) O
(C x31 (Some (W x3e xd8 xc3 xe9 xc1 xce xae x64)) O
(C x32 (Some (W x8b xd6 xc3 xe9 xc1 xcd xae x64)) O
(C x33 (Some (W xd8 xd4 xc3 xe9 xc1 xcc xae x64)) O
(C x34 (Some (W xbd xe0 xc3 xe9 xc1 xd3 xae x64)) O
(C x35 (Some (W x0a xdf xc3 xe9 xc1 xd2 xae x64)) O
(C x36 (Some (W x57 xdd xc3 xe9 xc1 xd1 xae x64)) O
(C x37 (Some (W xa4 xdb xc3 xe9 xc1 xd0 xae x64)) O
(C x38 (Some (W x59 xcc xc3 xe9 xc1 xc7 xae x64)) O
(C x39 (Some (W xa6 xca xc3 xe9 xc1 xc6 xae x64)) O
O))))))))))
(C x31 None (C x30 (Some (W xe8 x99 xc1 xe9 xc1 xc9 xab x64)) (C x30 (Some (W x08 x6a xf8 x33 x80 xac x81 xd1)) O
(C x31 (Some (W xbb x6b xf8 x33 x80 xad x81 xd1)) O
(C x32 (Some (W x6e x6d xf8 x33 x80 xae x81 xd1)) O
(C x33 (Some (W x21 x6f xf8 x33 x80 xaf x81 xd1)) O
(C x34 (Some (W xd4 x70 xf8 x33 x80 xb0 x81 xd1)) O
(C x35 (Some (W x87 x72 xf8 x33 x80 xb1 x81 xd1)) O
(C x36 (Some (W x3a x74 xf8 x33 x80 xb2 x81 xd1)) O
(C x37 (Some (W xed x75 xf8 x33 x80 xb3 x81 xd1)) O
(C x38 (Some (W x70 x5c xf8 x33 x80 xa4 x81 xd1)) O
(C x39 (Some (W x23 x5e xf8 x33 x80 xa5 x81 xd1)) O
O))))))))))
(C x31 (Some (W x9b x9b xc1 xe9 xc1 xca xab x64)) (C x30 (Some (W x91 x83 xfb x33 x80 x32 x85 xd1)) O
(C x31 (Some (W xde x81 xfb x33 x80 x31 x85 xd1)) O
(C x32 (Some (W x2b x80 xfb x33 x80 x30 x85 xd1)) O
(C x33 (Some (W x78 x7e xfb x33 x80 x2f x85 xd1)) O
(C x34 (Some (W x5d x8a xfb x33 x80 x36 x85 xd1)) O
(C x35 (Some (W xaa x88 xfb x33 x80 x35 x85 xd1)) O
(C x36 (Some (W xf7 x86 xfb x33 x80 x34 x85 xd1)) O
(C x37 (Some (W x44 x85 xfb x33 x80 x33 x85 xd1)) O
(C x38 (Some (W xf9 x75 xfb x33 x80 x2a x85 xd1)) O
(C x39 (Some (W x46 x74 xfb x33 x80 x29 x85 xd1)) O
O))))))))))
(C x32 (Some (W x4e x9d xc1 xe9 xc1 xcb xab x64)) (C x30 (Some (W x1a x9d xfe x33 x80 xb8 x88 xd1)) O
(C x31 (Some (W xcd x9e xfe x33 x80 xb9 x88 xd1)) O
(C x32 (Some (W xb4 x99 xfe x33 x80 xb6 x88 xd1)) O
(C x33 (Some (W x67 x9b xfe x33 x80 xb7 x88 xd1)) O
(C x34 (Some (W x4e x96 xfe x33 x80 xb4 x88 xd1)) O
(C x35 (Some (W x01 x98 xfe x33 x80 xb5 x88 xd1)) O
(C x36 (Some (W xe8 x92 xfe x33 x80 xb2 x88 xd1)) O
(C x37 (Some (W x9b x94 xfe x33 x80 xb3 x88 xd1)) O
(C x38 (Some (W x82 x8f xfe x33 x80 xb0 x88 xd1)) O
(C x39 (Some (W x35 x91 xfe x33 x80 xb1 x88 xd1)) O
O))))))))))
(C x33 (Some (W x01 x9f xc1 xe9 xc1 xcc xab x64)) (C x30 (Some (W x43 x80 x01 x34 x80 x1e x8c xd1)) O
(C x31 (Some (W x90 x7e x01 x34 x80 x1d x8c xd1)) O
(C x32 (Some (W xa9 x83 x01 x34 x80 x20 x8c xd1)) O
(C x33 (Some (W xf6 x81 x01 x34 x80 x1f x8c xd1)) O
(C x34 (Some (W x0f x87 x01 x34 x80 x22 x8c xd1)) O
(C x35 (Some (W x5c x85 x01 x34 x80 x21 x8c xd1)) O
(C x36 (Some (W x75 x8a x01 x34 x80 x24 x8c xd1)) O
(C x37 (Some (W xc2 x88 x01 x34 x80 x23 x8c xd1)) O
(C x38 (Some (W xdb x8d x01 x34 x80 x26 x8c xd1)) O
(C x39 (Some (W x28 x8c x01 x34 x80 x25 x8c xd1)) O
O))))))))))
(C x34 (Some (W xb4 xa0 xc1 xe9 xc1 xcd xab x64)) (C x30 (Some (W x4c xc0 x03 x34 x80 x24 x8f xd1)) O
(C x31 (Some (W xff xc1 x03 x34 x80 x25 x8f xd1)) O
(C x32 (Some (W xb2 xc3 x03 x34 x80 x26 x8f xd1)) O
(C x33 (Some (W x65 xc5 x03 x34 x80 x27 x8f xd1)) O
(C x34 (Some (W x80 xb9 x03 x34 x80 x20 x8f xd1)) O
(C x35 (Some (W x33 xbb x03 x34 x80 x21 x8f xd1)) O
(C x36 (Some (W xe6 xbc x03 x34 x80 x22 x8f xd1)) O
(C x37 (Some (W x99 xbe x03 x34 x80 x23 x8f xd1)) O
(C x38 (Some (W xe4 xcd x03 x34 x80 x2c x8f xd1)) O
(C x39 (Some (W x97 xcf x03 x34 x80 x2d x8f xd1)) O
O))))))))))
(C x35 (Some (W x67 xa2 xc1 xe9 xc1 xce xab x64)) O
(C x36 (Some (W x1a xa4 xc1 xe9 xc1 xcf xab x64)) O
(C x37 (Some (W xcd xa5 xc1 xe9 xc1 xd0 xab x64)) O
(C x38 (Some (W x50 x8c xc1 xe9 xc1 xc1 xab x64)) O
(C x39 (Some (W x03 x8e xc1 xe9 xc1 xc2 xab x64)) O
O))))))))))
(C x32 None (C x30 (Some (W xa3 xd6 xc9 xe9 xc1 xbb xb5 x64)) O
(C x31 (Some (W xf0 xd4 xc9 xe9 xc1 xba xb5 x64)) O
(C x32 (Some (W x09 xda xc9 xe9 xc1 xbd xb5 x64)) O
(C x33 (Some (W x56 xd8 xc9 xe9 xc1 xbc xb5 x64)) O
(C x34 (Some (W x6f xdd xc9 xe9 xc1 xbf xb5 x64)) O
(C x35 (Some (W xbc xdb xc9 xe9 xc1 xbe xb5 x64)) O
(C x36 (Some (W xd5 xe0 xc9 xe9 xc1 xc1 xb5 x64)) O
(C x37 (Some (W x22 xdf xc9 xe9 xc1 xc0 xb5 x64)) O
(C x38 (Some (W x3b xe4 xc9 xe9 xc1 xc3 xb5 x64)) O
(C x39 (Some (W x88 xe2 xc9 xe9 xc1 xc2 xb5 x64)) O
O))))))))))
(C x33 None (C x30 (Some (W x7a xf3 xc6 xe9 xc1 x55 xb2 x64)) O
(C x31 (Some (W x2d xf5 xc6 xe9 xc1 x56 xb2 x64)) O
(C x32 (Some (W x14 xf0 xc6 xe9 xc1 x53 xb2 x64)) O
(C x33 (Some (W xc7 xf1 xc6 xe9 xc1 x54 xb2 x64)) O
(C x34 (Some (W xae xec xc6 xe9 xc1 x51 xb2 x64)) O
(C x35 (Some (W x61 xee xc6 xe9 xc1 x52 xb2 x64)) O
(C x36 (Some (W x48 xe9 xc6 xe9 xc1 x4f xb2 x64)) O
(C x37 (Some (W xfb xea xc6 xe9 xc1 x50 xb2 x64)) O
(C x38 (Some (W xe2 xe5 xc6 xe9 xc1 x4d xb2 x64)) O
(C x39 (Some (W x95 xe7 xc6 xe9 xc1 x4e xb2 x64)) O
O))))))))))
(C x34 None (C x30 (Some (W xb5 x09 xd0 xe9 xc1 xc7 xbc x64)) O
(C x31 (Some (W x02 x08 xd0 xe9 xc1 xc6 xbc x64)) O
(C x32 (Some (W x4f x06 xd0 xe9 xc1 xc5 xbc x64)) O
(C x33 (Some (W x9c x04 xd0 xe9 xc1 xc4 xbc x64)) O
(C x34 (Some (W xe9 x02 xd0 xe9 xc1 xc3 xbc x64)) O
(C x35 (Some (W x36 x01 xd0 xe9 xc1 xc2 xbc x64)) O
(C x36 (Some (W x83 xff xcf xe9 xc1 xc1 xbc x64)) O
(C x37 (Some (W xd0 xfd xcf xe9 xc1 xc0 xbc x64)) O
(C x38 (Some (W x4d x17 xd0 xe9 xc1 xcf xbc x64)) O
(C x39 (Some (W x9a x15 xd0 xe9 xc1 xce xbc x64)) O
O))))))))))
(C x35 None (C x30 (Some (W x2c xf0 xcc xe9 xc1 x41 xb9 x64)) O
(C x31 (Some (W xdf xf1 xcc xe9 xc1 x42 xb9 x64)) O
(C x32 (Some (W x92 xf3 xcc xe9 xc1 x43 xb9 x64)) O
(C x33 (Some (W x45 xf5 xcc xe9 xc1 x44 xb9 x64)) O
(C x34 (Some (W x60 xe9 xcc xe9 xc1 x3d xb9 x64)) O
(C x35 (Some (W x13 xeb xcc xe9 xc1 x3e xb9 x64)) O
(C x36 (Some (W xc6 xec xcc xe9 xc1 x3f xb9 x64)) O
(C x37 (Some (W x79 xee xcc xe9 xc1 x40 xb9 x64)) O
(C x38 (Some (W xc4 xfd xcc xe9 xc1 x49 xb9 x64)) O
(C x39 (Some (W x77 xff xcc xe9 xc1 x4a xb9 x64)) O
O))))))))))
(C x36 None (C x30 (Some (W x47 x63 xd5 xe9 xc1 x53 xc3 x64)) O
(C x31 (Some (W x94 x61 xd5 xe9 xc1 x52 xc3 x64)) O
(C x32 (Some (W xad x66 xd5 xe9 xc1 x55 xc3 x64)) O
(C x33 (Some (W xfa x64 xd5 xe9 xc1 x54 xc3 x64)) O
(C x34 (Some (W x7b x5c xd5 xe9 xc1 x4f xc3 x64)) O
(C x35 (Some (W xc8 x5a xd5 xe9 xc1 x4e xc3 x64)) O
(C x36 (Some (W xe1 x5f xd5 xe9 xc1 x51 xc3 x64)) O
(C x37 (Some (W x2e x5e xd5 xe9 xc1 x50 xc3 x64)) O
(C x38 (Some (W xaf x55 xd5 xe9 xc1 x4b xc3 x64)) O
(C x39 (Some (W xfc x53 xd5 xe9 xc1 x4a xc3 x64)) O
O))))))))))
(C x37 None (C x30 (Some (W xbe x49 xd2 xe9 xc1 xcd xbf x64)) O
(C x31 (Some (W x71 x4b xd2 xe9 xc1 xce xbf x64)) O
(C x32 (Some (W x58 x46 xd2 xe9 xc1 xcb xbf x64)) O
(C x33 (Some (W x0b x48 xd2 xe9 xc1 xcc xbf x64)) O
(C x34 (Some (W x8a x50 xd2 xe9 xc1 xd1 xbf x64)) O
(C x35 (Some (W x3d x52 xd2 xe9 xc1 xd2 xbf x64)) O
(C x36 (Some (W x24 x4d xd2 xe9 xc1 xcf xbf x64)) O
(C x37 (Some (W xd7 x4e xd2 xe9 xc1 xd0 xbf x64)) O
(C x38 (Some (W x26 x3c xd2 xe9 xc1 xc5 xbf x64)) O
(C x39 (Some (W xd9 x3d xd2 xe9 xc1 xc6 xbf x64)) O
O))))))))))
(C x38 None (C x30 (Some (W x09 xf7 xac xe9 xc1 xbf x93 x64)) O
(C x31 (Some (W x56 xf5 xac xe9 xc1 xbe x93 x64)) O
(C x32 (Some (W xa3 xf3 xac xe9 xc1 xbd x93 x64)) O
(C x33 (Some (W xf0 xf1 xac xe9 xc1 xbc x93 x64)) O
(C x34 (Some (W xd5 xfd xac xe9 xc1 xc3 x93 x64)) O
(C x35 (Some (W x22 xfc xac xe9 xc1 xc2 x93 x64)) O
(C x36 (Some (W x6f xfa xac xe9 xc1 xc1 x93 x64)) O
(C x37 (Some (W xbc xf8 xac xe9 xc1 xc0 x93 x64)) O
(C x38 (Some (W xa1 x04 xad xe9 xc1 xc7 x93 x64)) O
(C x39 (Some (W xee x02 xad xe9 xc1 xc6 x93 x64)) O
O))))))))))
(C x39 None (C x30 (Some (W x80 xdd xa9 xe9 xc1 x39 x90 x64)) O
(C x31 (Some (W x33 xdf xa9 xe9 xc1 x3a x90 x64)) O
(C x32 (Some (W xe6 xe0 xa9 xe9 xc1 x3b x90 x64)) O
(C x33 (Some (W x99 xe2 xa9 xe9 xc1 x3c x90 x64)) O
(C x34 (Some (W x4c xe4 xa9 xe9 xc1 x3d x90 x64)) O
(C x35 (Some (W xff xe5 xa9 xe9 xc1 x3e x90 x64)) O
(C x36 (Some (W xb2 xe7 xa9 xe9 xc1 x3f x90 x64)) O
(C x37 (Some (W x65 xe9 xa9 xe9 xc1 x40 x90 x64)) O
(C x38 (Some (W x18 xeb xa9 xe9 xc1 x41 x90 x64)) O
(C x39 (Some (W xcb xec xa9 xe9 xc1 x42 x90 x64)) O
O))))))))))
O))))))))))
O)
O)
(C x72 None (C x61 None (C x5f None (C x30 None (C x30 (Some (W x47 x06 x12 x3a xb1 x83 x66 xe3)) O
(C x31 (Some (W x94 x04 x12 x3a xb1 x82 x66 xe3)) O
(C x32 (Some (W xad x09 x12 x3a xb1 x85 x66 xe3)) O
(C x33 (Some (W xfa x07 x12 x3a xb1 x84 x66 xe3)) O
(C x34 (Some (W x7b xff x11 x3a xb1 x7f x66 xe3)) O
(C x35 (Some (W xc8 xfd x11 x3a xb1 x7e x66 xe3)) O
(C x36 (Some (W xe1 x02 x12 x3a xb1 x81 x66 xe3)) O
(C x37 (Some (W x2e x01 x12 x3a xb1 x80 x66 xe3)) O
(C x38 (Some (W xaf xf8 x11 x3a xb1 x7b x66 xe3)) O
(C x39 (Some (W xfc xf6 x11 x3a xb1 x7a x66 xe3)) O
O))))))))))
(C x31 None (C x30 (Some (W xbe xec x0e x3a xb1 xfd x62 xe3)) (C x30 (Some (W x4a xf5 x5b xa7 x25 xa2 x21 x70)) O
(C x31 (Some (W xfd xf6 x5b xa7 x25 xa3 x21 x70)) O
(C x32 (Some (W xe4 xf1 x5b xa7 x25 xa0 x21 x70)) O
(C x33 (Some (W x97 xf3 x5b xa7 x25 xa1 x21 x70)) O
(C x34 (Some (W x7e xee x5b xa7 x25 x9e x21 x70)) O
(C x35 (Some (W x31 xf0 x5b xa7 x25 x9f x21 x70)) O
(C x36 (Some (W x18 xeb x5b xa7 x25 x9c x21 x70)) O
(C x37 (Some (W xcb xec x5b xa7 x25 x9d x21 x70)) O
(C x38 (Some (W xb2 xe7 x5b xa7 x25 x9a x21 x70)) O
(C x39 (Some (W x65 xe9 x5b xa7 x25 x9b x21 x70)) O
O))))))))))
(C x31 (Some (W x71 xee x0e x3a xb1 xfe x62 xe3)) (C x30 (Some (W x73 xd8 x5e xa7 x25 x08 x25 x70)) O
(C x31 (Some (W xc0 xd6 x5e xa7 x25 x07 x25 x70)) O
(C x32 (Some (W xd9 xdb x5e xa7 x25 x0a x25 x70)) O
(C x33 (Some (W x26 xda x5e xa7 x25 x09 x25 x70)) O
(C x34 (Some (W x3f xdf x5e xa7 x25 x0c x25 x70)) O
(C x35 (Some (W x8c xdd x5e xa7 x25 x0b x25 x70)) O
(C x36 (Some (W xa5 xe2 x5e xa7 x25 x0e x25 x70)) O
(C x37 (Some (W xf2 xe0 x5e xa7 x25 x0d x25 x70)) O
(C x38 (Some (W x0b xe6 x5e xa7 x25 x10 x25 x70)) O
(C x39 (Some (W x58 xe4 x5e xa7 x25 x0f x25 x70)) O
O))))))))))
(C x32 (Some (W x58 xe9 x0e x3a xb1 xfb x62 xe3)) (C x30 (Some (W xb8 x9b x56 xa7 x25 x16 x1b x70)) O
(C x31 (Some (W x6b x9d x56 xa7 x25 x17 x1b x70)) O
(C x32 (Some (W x1e x9f x56 xa7 x25 x18 x1b x70)) O
(C x33 (Some (W xd1 xa0 x56 xa7 x25 x19 x1b x70)) O
(C x34 (Some (W x84 xa2 x56 xa7 x25 x1a x1b x70)) O
(C x35 (Some (W x37 xa4 x56 xa7 x25 x1b x1b x70)) O
(C x36 (Some (W xea xa5 x56 xa7 x25 x1c x1b x70)) O
(C x37 (Some (W x9d xa7 x56 xa7 x25 x1d x1b x70)) O
(C x38 (Some (W x20 x8e x56 xa7 x25 x0e x1b x70)) O
(C x39 (Some (W xd3 x8f x56 xa7 x25 x0f x1b x70)) O
O))))))))))
(C x33 (Some (W x0b xeb x0e x3a xb1 xfc x62 xe3)) (C x30 (Some (W x41 xb5 x59 xa7 x25 x9c x1e x70)) O
(C x31 (Some (W x8e xb3 x59 xa7 x25 x9b x1e x70)) O
(C x32 (Some (W xdb xb1 x59 xa7 x25 x9a x1e x70)) O
(C x33 (Some (W x28 xb0 x59 xa7 x25 x99 x1e x70)) O
(C x34 (Some (W x0d xbc x59 xa7 x25 xa0 x1e x70)) O
(C x35 (Some (W x5a xba x59 xa7 x25 x9f x1e x70)) O
(C x36 (Some (W xa7 xb8 x59 xa7 x25 x9e x1e x70)) O
(C x37 (Some (W xf4 xb6 x59 xa7 x25 x9d x1e x70)) O
(C x38 (Some (W xa9 xa7 x59 xa7 x25 x94 x1e x70)) O
(C x39 (Some (W xf6 xa5 x59 xa7 x25 x93 x1e x70)) O
O))))))))))
(C x34 (Some (W x8a xf3 x0e x3a xb1 x01 x63 xe3)) (C x30 (Some (W x0e x25 x68 xa7 x25 x9a x2f x70)) O
(C x31 (Some (W xc1 x26 x68 xa7 x25 x9b x2f x70)) O
(C x32 (Some (W xa8 x21 x68 xa7 x25 x98 x2f x70)) O
(C x33 (Some (W x5b x23 x68 xa7 x25 x99 x2f x70)) O
(C x34 (Some (W xda x2b x68 xa7 x25 x9e x2f x70)) O
(C x35 (Some (W x8d x2d x68 xa7 x25 x9f x2f x70)) O
(C x36 (Some (W x74 x28 x68 xa7 x25 x9c x2f x70)) O
(C x37 (Some (W x27 x2a x68 xa7 x25 x9d x2f x70)) O
(C x38 (Some (W x76 x17 x68 xa7 x25 x92 x2f x70)) O
(C x39 (Some (W x29 x19 x68 xa7 x25 x93 x2f x70)) O
O))))))))))
(C x35 (Some (W x3d xf5 x0e x3a xb1 x02 x63 xe3)) O
(C x36 (Some (W x24 xf0 x0e x3a xb1 xff x62 xe3)) O
(C x37 (Some (W xd7 xf1 x0e x3a xb1 x00 x63 xe3)) O
(C x38 (Some (W x26 xdf x0e x3a xb1 xf5 x62 xe3)) O
(C x39 (Some (W xd9 xe0 x0e x3a xb1 xf6 x62 xe3)) O
O))))))))))
(C x32 None (C x30 (Some (W xb5 xac x0c x3a xb1 xf7 x5f xe3)) O
(C x31 (Some (W x02 xab x0c x3a xb1 xf6 x5f xe3)) O
(C x32 (Some (W x4f xa9 x0c x3a xb1 xf5 x5f xe3)) O
(C x33 (Some (W x9c xa7 x0c x3a xb1 xf4 x5f xe3)) O
(C x34 (Some (W xe9 xa5 x0c x3a xb1 xf3 x5f xe3)) O
(C x35 (Some (W x36 xa4 x0c x3a xb1 xf2 x5f xe3)) O
(C x36 (Some (W x83 xa2 x0c x3a xb1 xf1 x5f xe3)) O
(C x37 (Some (W xd0 xa0 x0c x3a xb1 xf0 x5f xe3)) O
(C x38 (Some (W x4d xba x0c x3a xb1 xff x5f xe3)) O
(C x39 (Some (W x9a xb8 x0c x3a xb1 xfe x5f xe3)) O
O))))))))))
(C x33 None (C x30 (Some (W x2c x93 x09 x3a xb1 x71 x5c xe3)) O
(C x31 (Some (W xdf x94 x09 x3a xb1 x72 x5c xe3)) O
(C x32 (Some (W x92 x96 x09 x3a xb1 x73 x5c xe3)) O
(C x33 (Some (W x45 x98 x09 x3a xb1 x74 x5c xe3)) O
(C x34 (Some (W x60 x8c x09 x3a xb1 x6d x5c xe3)) O
(C x35 (Some (W x13 x8e x09 x3a xb1 x6e x5c xe3)) O
(C x36 (Some (W xc6 x8f x09 x3a xb1 x6f x5c xe3)) O
(C x37 (Some (W x79 x91 x09 x3a xb1 x70 x5c xe3)) O
(C x38 (Some (W xc4 xa0 x09 x3a xb1 x79 x5c xe3)) O
(C x39 (Some (W x77 xa2 x09 x3a xb1 x7a x5c xe3)) O
O))))))))))
(C x34 None (C x30 (Some (W xa3 x79 x06 x3a xb1 xeb x58 xe3)) O
(C x31 (Some (W xf0 x77 x06 x3a xb1 xea x58 xe3)) O
(C x32 (Some (W x09 x7d x06 x3a xb1 xed x58 xe3)) O
(C x33 (Some (W x56 x7b x06 x3a xb1 xec x58 xe3)) O
(C x34 (Some (W x6f x80 x06 x3a xb1 xef x58 xe3)) O
(C x35 (Some (W xbc x7e x06 x3a xb1 xee x58 xe3)) O
(C x36 (Some (W xd5 x83 x06 x3a xb1 xf1 x58 xe3)) O
(C x37 (Some (W x22 x82 x06 x3a xb1 xf0 x58 xe3)) O
(C x38 (Some (W x3b x87 x06 x3a xb1 xf3 x58 xe3)) O
(C x39 (Some (W x88 x85 x06 x3a xb1 xf2 x58 xe3)) O
O))))))))))
(C x35 None (C x30 (Some (W x7a x96 x03 x3a xb1 x85 x55 xe3)) O
(C x31 (Some (W x2d x98 x03 x3a xb1 x86 x55 xe3)) O
(C x32 (Some (W x14 x93 x03 x3a xb1 x83 x55 xe3)) O
(C x33 (Some (W xc7 x94 x03 x3a xb1 x84 x55 xe3)) O
(C x34 (Some (W xae x8f x03 x3a xb1 x81 x55 xe3)) O
(C x35 (Some (W x61 x91 x03 x3a xb1 x82 x55 xe3)) O
(C x36 (Some (W x48 x8c x03 x3a xb1 x7f x55 xe3)) O
(C x37 (Some (W xfb x8d x03 x3a xb1 x80 x55 xe3)) O
(C x38 (Some (W xe2 x88 x03 x3a xb1 x7d x55 xe3)) O
(C x39 (Some (W x95 x8a x03 x3a xb1 x7e x55 xe3)) O
O))))))))))
(C x36 None (C x30 (Some (W xf1 x7c x00 x3a xb1 xff x51 xe3)) O
(C x31 (Some (W x3e x7b x00 x3a xb1 xfe x51 xe3)) O
(C x32 (Some (W x8b x79 x00 x3a xb1 xfd x51 xe3)) O
(C x33 (Some (W xd8 x77 x00 x3a xb1 xfc x51 xe3)) O
(C x34 (Some (W xbd x83 x00 x3a xb1 x03 x52 xe3)) O
(C x35 (Some (W x0a x82 x00 x3a xb1 x02 x52 xe3)) O
(C x36 (Some (W x57 x80 x00 x3a xb1 x01 x52 xe3)) O
(C x37 (Some (W xa4 x7e x00 x3a xb1 x00 x52 xe3)) O
(C x38 (Some (W x59 x6f x00 x3a xb1 xf7 x51 xe3)) O
(C x39 (Some (W xa6 x6d x00 x3a xb1 xf6 x51 xe3)) O
O))))))))))
(C x37 None (C x30 (Some (W xe8 x3c xfe x39 xb1 xf9 x4e xe3)) O
(C x31 (Some (W x9b x3e xfe x39 xb1 xfa x4e xe3)) O
(C x32 (Some (W x4e x40 xfe x39 xb1 xfb x4e xe3)) O
(C x33 (Some (W x01 x42 xfe x39 xb1 xfc x4e xe3)) O
(C x34 (Some (W xb4 x43 xfe x39 xb1 xfd x4e xe3)) O
(C x35 (Some (W x67 x45 xfe x39 xb1 xfe x4e xe3)) O
(C x36 (Some (W x1a x47 xfe x39 xb1 xff x4e xe3)) O
(C x37 (Some (W xcd x48 xfe x39 xb1 x00 x4f xe3)) O
(C x38 (Some (W x50 x2f xfe x39 xb1 xf1 x4e xe3)) O
(C x39 (Some (W x03 x31 xfe x39 xb1 xf2 x4e xe3)) O
O))))))))))
(C x38 None (C x30 (Some (W x5f x23 xfb x39 xb1 x73 x4b xe3)) O
(C x31 (Some (W xac x21 xfb x39 xb1 x72 x4b xe3)) O
(C x32 (Some (W xc5 x26 xfb x39 xb1 x75 x4b xe3)) O
(C x33 (Some (W x12 x25 xfb x39 xb1 x74 x4b xe3)) O
(C x34 (Some (W x93 x1c xfb x39 xb1 x6f x4b xe3)) O
(C x35 (Some (W xe0 x1a xfb x39 xb1 x6e x4b xe3)) O
(C x36 (Some (W xf9 x1f xfb x39 xb1 x71 x4b xe3)) O
(C x37 (Some (W x46 x1e xfb x39 xb1 x70 x4b xe3)) O
(C x38 (Some (W xf7 x30 xfb x39 xb1 x7b x4b xe3)) O
(C x39 (Some (W x44 x2f xfb x39 xb1 x7a x4b xe3)) O
O))))))))))
(C x39 None (C x30 (Some (W xd6 x09 xf8 x39 xb1 xed x47 xe3)) O
(C x31 (Some (W x89 x0b xf8 x39 xb1 xee x47 xe3)) O
(C x32 (Some (W x70 x06 xf8 x39 xb1 xeb x47 xe3)) O
(C x33 (Some (W x23 x08 xf8 x39 xb1 xec x47 xe3)) O
(C x34 (Some (W xa2 x10 xf8 x39 xb1 xf1 x47 xe3)) O
(C x35 (Some (W x55 x12 xf8 x39 xb1 xf2 x47 xe3)) O
(C x36 (Some (W x3c x0d xf8 x39 xb1 xef x47 xe3)) O
(C x37 (Some (W xef x0e xf8 x39 xb1 xf0 x47 xe3)) O
(C x38 (Some (W x6e x17 xf8 x39 xb1 xf5 x47 xe3)) O
(C x39 (Some (W x21 x19 xf8 x39 xb1 xf6 x47 xe3)) O
O))))))))))
O))))))))))
O)
O)
O)))
O)
O)
O)
O)))))))).
