(** Generated by tools/gen_unicode.py from the data files in unicode/. *)
From Verif Require Import Base CategoryModel.

(** unicode/UnicodeData.txt: codepoint, kind of the line and category (field 2).
    Neighbouring codepoints of one category are joined to a First and a Last line. *)
Definition category_data : list row :=
  [(0x0, First, Cc); (0x1f, Last, Cc); (0x20, Single, Zs); (0x21, First, Po); (0x23, Last, Po); (0x24, Single, Sc);
   (0x25, First, Po); (0x27, Last, Po); (0x28, Single, Ps); (0x29, Single, Pe); (0x2a, Single, Po); (0x2b, Single, Sm);
   (0x2c, Single, Po); (0x2d, Single, Pd); (0x2e, First, Po); (0x2f, Last, Po); (0x30, First, Nd); (0x39, Last, Nd);
   (0x3a, First, Po); (0x3b, Last, Po); (0x3c, First, Sm); (0x3e, Last, Sm); (0x3f, First, Po); (0x40, Last, Po);
   (0x41, First, Lu); (0x5a, Last, Lu); (0x5b, Single, Ps); (0x5c, Single, Po); (0x5d, Single, Pe); (0x5e, Single, Sk);
   (0x5f, Single, Pc); (0x60, Single, Sk); (0x61, First, Ll); (0x7a, Last, Ll); (0x7b, Single, Ps); (0x7c, Single, Sm);
   (0x7d, Single, Pe); (0x7e, Single, Sm); (0x7f, First, Cc); (0x9f, Last, Cc); (0xa0, Single, Zs); (0xa1, Single, Po);
   (0xa2, First, Sc); (0xa5, Last, Sc); (0xa6, Single, So); (0xa7, Single, Po); (0xa8, Single, Sk); (0xa9, Single, So);
   (0xaa, Single, Lo); (0xab, Single, Pi); (0xac, Single, Sm); (0xad, Single, Cf); (0xae, Single, So); (0xaf, Single, Sk);
   (0xb0, Single, So); (0xb1, Single, Sm); (0xb2, First, No); (0xb3, Last, No); (0xb4, Single, Sk); (0xb5, Single, Ll);
   (0xb6, First, Po); (0xb7, Last, Po); (0xb8, Single, Sk); (0xb9, Single, No); (0xba, Single, Lo); (0xbb, Single, Pf);
   (0xbc, First, No); (0xbe, Last, No); (0xbf, Single, Po); (0xc0, First, Lu); (0xd6, Last, Lu); (0xd7, Single, Sm);
   (0xd8, First, Lu); (0xde, Last, Lu); (0xdf, First, Ll); (0xf6, Last, Ll); (0xf7, Single, Sm); (0xf8, First, Ll);
   (0xff, Last, Ll); (0x100, Single, Lu); (0x101, Single, Ll); (0x102, Single, Lu); (0x103, Single, Ll); (0x104, Single, Lu);
   (0x105, Single, Ll); (0x106, Single, Lu); (0x107, Single, Ll); (0x108, Single, Lu); (0x109, Single, Ll); (0x10a, Single, Lu);
   (0x10b, Single, Ll); (0x10c, Single, Lu); (0x10d, Single, Ll); (0x10e, Single, Lu); (0x10f, Single, Ll); (0x110, Single, Lu);
   (0x111, Single, Ll); (0x112, Single, Lu); (0x113, Single, Ll); (0x114, Single, Lu); (0x115, Single, Ll); (0x116, Single, Lu);
   (0x117, Single, Ll); (0x118, Single, Lu); (0x119, Single, Ll); (0x11a, Single, Lu); (0x11b, Single, Ll); (0x11c, Single, Lu);
   (0x11d, Single, Ll); (0x11e, Single, Lu); (0x11f, Single, Ll); (0x120, Single, Lu); (0x121, Single, Ll); (0x122, Single, Lu);
   (0x123, Single, Ll); (0x124, Single, Lu); (0x125, Single, Ll); (0x126, Single, Lu); (0x127, Single, Ll); (0x128, Single, Lu);
   (0x129, Single, Ll); (0x12a, Single, Lu); (0x12b, Single, Ll); (0x12c, Single, Lu); (0x12d, Single, Ll); (0x12e, Single, Lu);
   (0x12f, Single, Ll); (0x130, Single, Lu); (0x131, Single, Ll); (0x132, Single, Lu); (0x133, Single, Ll); (0x134, Single, Lu);
   (0x135, Single, Ll); (0x136, Single, Lu); (0x137, First, Ll); (0x138, Last, Ll); (0x139, Single, Lu); (0x13a, Single, Ll);
   (0x13b, Single, Lu); (0x13c, Single, Ll); (0x13d, Single, Lu); (0x13e, Single, Ll); (0x13f, Single, Lu); (0x140, Single, Ll);
   (0x141, Single, Lu); (0x142, Single, Ll); (0x143, Single, Lu); (0x144, Single, Ll); (0x145, Single, Lu); (0x146, Single, Ll);
   (0x147, Single, Lu); (0x148, First, Ll); (0x149, Last, Ll); (0x14a, Single, Lu); (0x14b, Single, Ll); (0x14c, Single, Lu);
   (0x14d, Single, Ll); (0x14e, Single, Lu); (0x14f, Single, Ll); (0x150, Single, Lu); (0x151, Single, Ll); (0x152, Single, Lu);
   (0x153, Single, Ll); (0x154, Single, Lu); (0x155, Single, Ll); (0x156, Single, Lu); (0x157, Single, Ll); (0x158, Single, Lu);
   (0x159, Single, Ll); (0x15a, Single, Lu); (0x15b, Single, Ll); (0x15c, Single, Lu); (0x15d, Single, Ll); (0x15e, Single, Lu);
   (0x15f, Single, Ll); (0x160, Single, Lu); (0x161, Single, Ll); (0x162, Single, Lu); (0x163, Single, Ll); (0x164, Single, Lu);
   (0x165, Single, Ll); (0x166, Single, Lu); (0x167, Single, Ll); (0x168, Single, Lu); (0x169, Single, Ll); (0x16a, Single, Lu);
   (0x16b, Single, Ll); (0x16c, Single, Lu); (0x16d, Single, Ll); (0x16e, Single, Lu); (0x16f, Single, Ll); (0x170, Single, Lu);
   (0x171, Single, Ll); (0x172, Single, Lu); (0x173, Single, Ll); (0x174, Single, Lu); (0x175, Single, Ll); (0x176, Single, Lu);
   (0x177, Single, Ll); (0x178, First, Lu); (0x179, Last, Lu); (0x17a, Single, Ll); (0x17b, Single, Lu); (0x17c, Single, Ll);
   (0x17d, Single, Lu); (0x17e, First, Ll); (0x180, Last, Ll); (0x181, First, Lu); (0x182, Last, Lu); (0x183, Single, Ll);
   (0x184, Single, Lu); (0x185, Single, Ll); (0x186, First, Lu); (0x187, Last, Lu); (0x188, Single, Ll); (0x189, First, Lu);
   (0x18b, Last, Lu); (0x18c, First, Ll); (0x18d, Last, Ll); (0x18e, First, Lu); (0x191, Last, Lu); (0x192, Single, Ll);
   (0x193, First, Lu); (0x194, Last, Lu); (0x195, Single, Ll); (0x196, First, Lu); (0x198, Last, Lu); (0x199, First, Ll);
   (0x19b, Last, Ll); (0x19c, First, Lu); (0x19d, Last, Lu); (0x19e, Single, Ll); (0x19f, First, Lu); (0x1a0, Last, Lu);
   (0x1a1, Single, Ll); (0x1a2, Single, Lu); (0x1a3, Single, Ll); (0x1a4, Single, Lu); (0x1a5, Single, Ll); (0x1a6, First, Lu);
   (0x1a7, Last, Lu); (0x1a8, Single, Ll); (0x1a9, Single, Lu); (0x1aa, First, Ll); (0x1ab, Last, Ll); (0x1ac, Single, Lu);
   (0x1ad, Single, Ll); (0x1ae, First, Lu); (0x1af, Last, Lu); (0x1b0, Single, Ll); (0x1b1, First, Lu); (0x1b3, Last, Lu);
   (0x1b4, Single, Ll); (0x1b5, Single, Lu); (0x1b6, Single, Ll); (0x1b7, First, Lu); (0x1b8, Last, Lu); (0x1b9, First, Ll);
   (0x1ba, Last, Ll); (0x1bb, Single, Lo); (0x1bc, Single, Lu); (0x1bd, First, Ll); (0x1bf, Last, Ll); (0x1c0, First, Lo);
   (0x1c3, Last, Lo); (0x1c4, Single, Lu); (0x1c5, Single, Lt); (0x1c6, Single, Ll); (0x1c7, Single, Lu); (0x1c8, Single, Lt);
   (0x1c9, Single, Ll); (0x1ca, Single, Lu); (0x1cb, Single, Lt); (0x1cc, Single, Ll); (0x1cd, Single, Lu); (0x1ce, Single, Ll);
   (0x1cf, Single, Lu); (0x1d0, Single, Ll); (0x1d1, Single, Lu); (0x1d2, Single, Ll); (0x1d3, Single, Lu); (0x1d4, Single, Ll);
   (0x1d5, Single, Lu); (0x1d6, Single, Ll); (0x1d7, Single, Lu); (0x1d8, Single, Ll); (0x1d9, Single, Lu); (0x1da, Single, Ll);
   (0x1db, Single, Lu); (0x1dc, First, Ll); (0x1dd, Last, Ll); (0x1de, Single, Lu); (0x1df, Single, Ll); (0x1e0, Single, Lu);
   (0x1e1, Single, Ll); (0x1e2, Single, Lu); (0x1e3, Single, Ll); (0x1e4, Single, Lu); (0x1e5, Single, Ll); (0x1e6, Single, Lu);
   (0x1e7, Single, Ll); (0x1e8, Single, Lu); (0x1e9, Single, Ll); (0x1ea, Single, Lu); (0x1eb, Single, Ll); (0x1ec, Single, Lu);
   (0x1ed, Single, Ll); (0x1ee, Single, Lu); (0x1ef, First, Ll); (0x1f0, Last, Ll); (0x1f1, Single, Lu); (0x1f2, Single, Lt);
   (0x1f3, Single, Ll); (0x1f4, Single, Lu); (0x1f5, Single, Ll); (0x1f6, First, Lu); (0x1f8, Last, Lu); (0x1f9, Single, Ll);
   (0x1fa, Single, Lu); (0x1fb, Single, Ll); (0x1fc, Single, Lu); (0x1fd, Single, Ll); (0x1fe, Single, Lu); (0x1ff, Single, Ll);
   (0x200, Single, Lu); (0x201, Single, Ll); (0x202, Single, Lu); (0x203, Single, Ll); (0x204, Single, Lu); (0x205, Single, Ll);
   (0x206, Single, Lu); (0x207, Single, Ll); (0x208, Single, Lu); (0x209, Single, Ll); (0x20a, Single, Lu); (0x20b, Single, Ll);
   (0x20c, Single, Lu); (0x20d, Single, Ll); (0x20e, Single, Lu); (0x20f, Single, Ll); (0x210, Single, Lu); (0x211, Single, Ll);
   (0x212, Single, Lu); (0x213, Single, Ll); (0x214, Single, Lu); (0x215, Single, Ll); (0x216, Single, Lu); (0x217, Single, Ll);
   (0x218, Single, Lu); (0x219, Single, Ll); (0x21a, Single, Lu); (0x21b, Single, Ll); (0x21c, Single, Lu); (0x21d, Single, Ll);
   (0x21e, Single, Lu); (0x21f, Single, Ll); (0x220, Single, Lu); (0x221, Single, Ll); (0x222, Single, Lu); (0x223, Single, Ll);
   (0x224, Single, Lu); (0x225, Single, Ll); (0x226, Single, Lu); (0x227, Single, Ll); (0x228, Single, Lu); (0x229, Single, Ll);
   (0x22a, Single, Lu); (0x22b, Single, Ll); (0x22c, Single, Lu); (0x22d, Single, Ll); (0x22e, Single, Lu); (0x22f, Single, Ll);
   (0x230, Single, Lu); (0x231, Single, Ll); (0x232, Single, Lu); (0x233, First, Ll); (0x239, Last, Ll); (0x23a, First, Lu);
   (0x23b, Last, Lu); (0x23c, Single, Ll); (0x23d, First, Lu); (0x23e, Last, Lu); (0x23f, First, Ll); (0x240, Last, Ll);
   (0x241, Single, Lu); (0x242, Single, Ll); (0x243, First, Lu); (0x246, Last, Lu); (0x247, Single, Ll); (0x248, Single, Lu);
   (0x249, Single, Ll); (0x24a, Single, Lu); (0x24b, Single, Ll); (0x24c, Single, Lu); (0x24d, Single, Ll); (0x24e, Single, Lu);
   (0x24f, First, Ll); (0x293, Last, Ll); (0x294, Single, Lo); (0x295, First, Ll); (0x2af, Last, Ll); (0x2b0, First, Lm);
   (0x2c1, Last, Lm); (0x2c2, First, Sk); (0x2c5, Last, Sk); (0x2c6, First, Lm); (0x2d1, Last, Lm); (0x2d2, First, Sk);
   (0x2df, Last, Sk); (0x2e0, First, Lm); (0x2e4, Last, Lm); (0x2e5, First, Sk); (0x2eb, Last, Sk); (0x2ec, Single, Lm);
   (0x2ed, Single, Sk); (0x2ee, Single, Lm); (0x2ef, First, Sk); (0x2ff, Last, Sk); (0x300, First, Mn); (0x36f, Last, Mn);
   (0x370, Single, Lu); (0x371, Single, Ll); (0x372, Single, Lu); (0x373, Single, Ll); (0x374, Single, Lm); (0x375, Single, Sk);
   (0x376, Single, Lu); (0x377, Single, Ll); (0x37a, Single, Lm); (0x37b, First, Ll); (0x37d, Last, Ll); (0x37e, Single, Po);
   (0x37f, Single, Lu); (0x384, First, Sk); (0x385, Last, Sk); (0x386, Single, Lu); (0x387, Single, Po); (0x388, First, Lu);
   (0x38a, Last, Lu); (0x38c, Single, Lu); (0x38e, First, Lu); (0x38f, Last, Lu); (0x390, Single, Ll); (0x391, First, Lu);
   (0x3a1, Last, Lu); (0x3a3, First, Lu); (0x3ab, Last, Lu); (0x3ac, First, Ll); (0x3ce, Last, Ll); (0x3cf, Single, Lu);
   (0x3d0, First, Ll); (0x3d1, Last, Ll); (0x3d2, First, Lu); (0x3d4, Last, Lu); (0x3d5, First, Ll); (0x3d7, Last, Ll);
   (0x3d8, Single, Lu); (0x3d9, Single, Ll); (0x3da, Single, Lu); (0x3db, Single, Ll); (0x3dc, Single, Lu); (0x3dd, Single, Ll);
   (0x3de, Single, Lu); (0x3df, Single, Ll); (0x3e0, Single, Lu); (0x3e1, Single, Ll); (0x3e2, Single, Lu); (0x3e3, Single, Ll);
   (0x3e4, Single, Lu); (0x3e5, Single, Ll); (0x3e6, Single, Lu); (0x3e7, Single, Ll); (0x3e8, Single, Lu); (0x3e9, Single, Ll);
   (0x3ea, Single, Lu); (0x3eb, Single, Ll); (0x3ec, Single, Lu); (0x3ed, Single, Ll); (0x3ee, Single, Lu); (0x3ef, First, Ll);
   (0x3f3, Last, Ll); (0x3f4, Single, Lu); (0x3f5, Single, Ll); (0x3f6, Single, Sm); (0x3f7, Single, Lu); (0x3f8, Single, Ll);
   (0x3f9, First, Lu); (0x3fa, Last, Lu); (0x3fb, First, Ll); (0x3fc, Last, Ll); (0x3fd, First, Lu); (0x42f, Last, Lu);
   (0x430, First, Ll); (0x45f, Last, Ll); (0x460, Single, Lu); (0x461, Single, Ll); (0x462, Single, Lu); (0x463, Single, Ll);
   (0x464, Single, Lu); (0x465, Single, Ll); (0x466, Single, Lu); (0x467, Single, Ll); (0x468, Single, Lu); (0x469, Single, Ll);
   (0x46a, Single, Lu); (0x46b, Single, Ll); (0x46c, Single, Lu); (0x46d, Single, Ll); (0x46e, Single, Lu); (0x46f, Single, Ll);
   (0x470, Single, Lu); (0x471, Single, Ll); (0x472, Single, Lu); (0x473, Single, Ll); (0x474, Single, Lu); (0x475, Single, Ll);
   (0x476, Single, Lu); (0x477, Single, Ll); (0x478, Single, Lu); (0x479, Single, Ll); (0x47a, Single, Lu); (0x47b, Single, Ll);
   (0x47c, Single, Lu); (0x47d, Single, Ll); (0x47e, Single, Lu); (0x47f, Single, Ll); (0x480, Single, Lu); (0x481, Single, Ll);
   (0x482, Single, So); (0x483, First, Mn); (0x487, Last, Mn); (0x488, First, Me); (0x489, Last, Me); (0x48a, Single, Lu);
   (0x48b, Single, Ll); (0x48c, Single, Lu); (0x48d, Single, Ll); (0x48e, Single, Lu); (0x48f, Single, Ll); (0x490, Single, Lu);
   (0x491, Single, Ll); (0x492, Single, Lu); (0x493, Single, Ll); (0x494, Single, Lu); (0x495, Single, Ll); (0x496, Single, Lu);
   (0x497, Single, Ll); (0x498, Single, Lu); (0x499, Single, Ll); (0x49a, Single, Lu); (0x49b, Single, Ll); (0x49c, Single, Lu);
   (0x49d, Single, Ll); (0x49e, Single, Lu); (0x49f, Single, Ll); (0x4a0, Single, Lu); (0x4a1, Single, Ll); (0x4a2, Single, Lu);
   (0x4a3, Single, Ll); (0x4a4, Single, Lu); (0x4a5, Single, Ll); (0x4a6, Single, Lu); (0x4a7, Single, Ll); (0x4a8, Single, Lu);
   (0x4a9, Single, Ll); (0x4aa, Single, Lu); (0x4ab, Single, Ll); (0x4ac, Single, Lu); (0x4ad, Single, Ll); (0x4ae, Single, Lu);
   (0x4af, Single, Ll); (0x4b0, Single, Lu); (0x4b1, Single, Ll); (0x4b2, Single, Lu); (0x4b3, Single, Ll); (0x4b4, Single, Lu);
   (0x4b5, Single, Ll); (0x4b6, Single, Lu); (0x4b7, Single, Ll); (0x4b8, Single, Lu); (0x4b9, Single, Ll); (0x4ba, Single, Lu);
   (0x4bb, Single, Ll); (0x4bc, Single, Lu); (0x4bd, Single, Ll); (0x4be, Single, Lu); (0x4bf, Single, Ll); (0x4c0, First, Lu);
   (0x4c1, Last, Lu); (0x4c2, Single, Ll); (0x4c3, Single, Lu); (0x4c4, Single, Ll); (0x4c5, Single, Lu); (0x4c6, Single, Ll);
   (0x4c7, Single, Lu); (0x4c8, Single, Ll); (0x4c9, Single, Lu); (0x4ca, Single, Ll); (0x4cb, Single, Lu); (0x4cc, Single, Ll);
   (0x4cd, Single, Lu); (0x4ce, First, Ll); (0x4cf, Last, Ll); (0x4d0, Single, Lu); (0x4d1, Single, Ll); (0x4d2, Single, Lu);
   (0x4d3, Single, Ll); (0x4d4, Single, Lu); (0x4d5, Single, Ll); (0x4d6, Single, Lu); (0x4d7, Single, Ll); (0x4d8, Single, Lu);
   (0x4d9, Single, Ll); (0x4da, Single, Lu); (0x4db, Single, Ll); (0x4dc, Single, Lu); (0x4dd, Single, Ll); (0x4de, Single, Lu);
   (0x4df, Single, Ll); (0x4e0, Single, Lu); (0x4e1, Single, Ll); (0x4e2, Single, Lu); (0x4e3, Single, Ll); (0x4e4, Single, Lu);
   (0x4e5, Single, Ll); (0x4e6, Single, Lu); (0x4e7, Single, Ll); (0x4e8, Single, Lu); (0x4e9, Single, Ll); (0x4ea, Single, Lu);
   (0x4eb, Single, Ll); (0x4ec, Single, Lu); (0x4ed, Single, Ll); (0x4ee, Single, Lu); (0x4ef, Single, Ll); (0x4f0, Single, Lu);
   (0x4f1, Single, Ll); (0x4f2, Single, Lu); (0x4f3, Single, Ll); (0x4f4, Single, Lu); (0x4f5, Single, Ll); (0x4f6, Single, Lu);
   (0x4f7, Single, Ll); (0x4f8, Single, Lu); (0x4f9, Single, Ll); (0x4fa, Single, Lu); (0x4fb, Single, Ll); (0x4fc, Single, Lu);
   (0x4fd, Single, Ll); (0x4fe, Single, Lu); (0x4ff, Single, Ll); (0x500, Single, Lu); (0x501, Single, Ll); (0x502, Single, Lu);
   (0x503, Single, Ll); (0x504, Single, Lu); (0x505, Single, Ll); (0x506, Single, Lu); (0x507, Single, Ll); (0x508, Single, Lu);
   (0x509, Single, Ll); (0x50a, Single, Lu); (0x50b, Single, Ll); (0x50c, Single, Lu); (0x50d, Single, Ll); (0x50e, Single, Lu);
   (0x50f, Single, Ll); (0x510, Single, Lu); (0x511, Single, Ll); (0x512, Single, Lu); (0x513, Single, Ll); (0x514, Single, Lu);
   (0x515, Single, Ll); (0x516, Single, Lu); (0x517, Single, Ll); (0x518, Single, Lu); (0x519, Single, Ll); (0x51a, Single, Lu);
   (0x51b, Single, Ll); (0x51c, Single, Lu); (0x51d, Single, Ll); (0x51e, Single, Lu); (0x51f, Single, Ll); (0x520, Single, Lu);
   (0x521, Single, Ll); (0x522, Single, Lu); (0x523, Single, Ll); (0x524, Single, Lu); (0x525, Single, Ll); (0x526, Single, Lu);
   (0x527, Single, Ll); (0x528, Single, Lu); (0x529, Single, Ll); (0x52a, Single, Lu); (0x52b, Single, Ll); (0x52c, Single, Lu);
   (0x52d, Single, Ll); (0x52e, Single, Lu); (0x52f, Single, Ll); (0x531, First, Lu); (0x556, Last, Lu); (0x559, Single, Lm);
   (0x55a, First, Po); (0x55f, Last, Po); (0x560, First, Ll); (0x588, Last, Ll); (0x589, Single, Po); (0x58a, Single, Pd);
   (0x58d, First, So); (0x58e, Last, So); (0x58f, Single, Sc); (0x591, First, Mn); (0x5bd, Last, Mn); (0x5be, Single, Pd);
   (0x5bf, Single, Mn); (0x5c0, Single, Po); (0x5c1, First, Mn); (0x5c2, Last, Mn); (0x5c3, Single, Po); (0x5c4, First, Mn);
   (0x5c5, Last, Mn); (0x5c6, Single, Po); (0x5c7, Single, Mn); (0x5d0, First, Lo); (0x5ea, Last, Lo); (0x5ef, First, Lo);
   (0x5f2, Last, Lo); (0x5f3, First, Po); (0x5f4, Last, Po); (0x600, First, Cf); (0x605, Last, Cf); (0x606, First, Sm);
   (0x608, Last, Sm); (0x609, First, Po); (0x60a, Last, Po); (0x60b, Single, Sc); (0x60c, First, Po); (0x60d, Last, Po);
   (0x60e, First, So); (0x60f, Last, So); (0x610, First, Mn); (0x61a, Last, Mn); (0x61b, Single, Po); (0x61c, Single, Cf);
   (0x61e, First, Po); (0x61f, Last, Po); (0x620, First, Lo); (0x63f, Last, Lo); (0x640, Single, Lm); (0x641, First, Lo);
   (0x64a, Last, Lo); (0x64b, First, Mn); (0x65f, Last, Mn); (0x660, First, Nd); (0x669, Last, Nd); (0x66a, First, Po);
   (0x66d, Last, Po); (0x66e, First, Lo); (0x66f, Last, Lo); (0x670, Single, Mn); (0x671, First, Lo); (0x6d3, Last, Lo);
   (0x6d4, Single, Po); (0x6d5, Single, Lo); (0x6d6, First, Mn); (0x6dc, Last, Mn); (0x6dd, Single, Cf); (0x6de, Single, So);
   (0x6df, First, Mn); (0x6e4, Last, Mn); (0x6e5, First, Lm); (0x6e6, Last, Lm); (0x6e7, First, Mn); (0x6e8, Last, Mn);
   (0x6e9, Single, So); (0x6ea, First, Mn); (0x6ed, Last, Mn); (0x6ee, First, Lo); (0x6ef, Last, Lo); (0x6f0, First, Nd);
   (0x6f9, Last, Nd); (0x6fa, First, Lo); (0x6fc, Last, Lo); (0x6fd, First, So); (0x6fe, Last, So); (0x6ff, Single, Lo);
   (0x700, First, Po); (0x70d, Last, Po); (0x70f, Single, Cf); (0x710, Single, Lo); (0x711, Single, Mn); (0x712, First, Lo);
   (0x72f, Last, Lo); (0x730, First, Mn); (0x74a, Last, Mn); (0x74d, First, Lo); (0x7a5, Last, Lo); (0x7a6, First, Mn);
   (0x7b0, Last, Mn); (0x7b1, Single, Lo); (0x7c0, First, Nd); (0x7c9, Last, Nd); (0x7ca, First, Lo); (0x7ea, Last, Lo);
   (0x7eb, First, Mn); (0x7f3, Last, Mn); (0x7f4, First, Lm); (0x7f5, Last, Lm); (0x7f6, Single, So); (0x7f7, First, Po);
   (0x7f9, Last, Po); (0x7fa, Single, Lm); (0x7fd, Single, Mn); (0x7fe, First, Sc); (0x7ff, Last, Sc); (0x800, First, Lo);
   (0x815, Last, Lo); (0x816, First, Mn); (0x819, Last, Mn); (0x81a, Single, Lm); (0x81b, First, Mn); (0x823, Last, Mn);
   (0x824, Single, Lm); (0x825, First, Mn); (0x827, Last, Mn); (0x828, Single, Lm); (0x829, First, Mn); (0x82d, Last, Mn);
   (0x830, First, Po); (0x83e, Last, Po); (0x840, First, Lo); (0x858, Last, Lo); (0x859, First, Mn); (0x85b, Last, Mn);
   (0x85e, Single, Po); (0x860, First, Lo); (0x86a, Last, Lo); (0x8a0, First, Lo); (0x8b4, Last, Lo); (0x8b6, First, Lo);
   (0x8c7, Last, Lo); (0x8d3, First, Mn); (0x8e1, Last, Mn); (0x8e2, Single, Cf); (0x8e3, First, Mn); (0x902, Last, Mn);
   (0x903, Single, Mc); (0x904, First, Lo); (0x939, Last, Lo); (0x93a, Single, Mn); (0x93b, Single, Mc); (0x93c, Single, Mn);
   (0x93d, Single, Lo); (0x93e, First, Mc); (0x940, Last, Mc); (0x941, First, Mn); (0x948, Last, Mn); (0x949, First, Mc);
   (0x94c, Last, Mc); (0x94d, Single, Mn); (0x94e, First, Mc); (0x94f, Last, Mc); (0x950, Single, Lo); (0x951, First, Mn);
   (0x957, Last, Mn); (0x958, First, Lo); (0x961, Last, Lo); (0x962, First, Mn); (0x963, Last, Mn); (0x964, First, Po);
   (0x965, Last, Po); (0x966, First, Nd); (0x96f, Last, Nd); (0x970, Single, Po); (0x971, Single, Lm); (0x972, First, Lo);
   (0x980, Last, Lo); (0x981, Single, Mn); (0x982, First, Mc); (0x983, Last, Mc); (0x985, First, Lo); (0x98c, Last, Lo);
   (0x98f, First, Lo); (0x990, Last, Lo); (0x993, First, Lo); (0x9a8, Last, Lo); (0x9aa, First, Lo); (0x9b0, Last, Lo);
   (0x9b2, Single, Lo); (0x9b6, First, Lo); (0x9b9, Last, Lo); (0x9bc, Single, Mn); (0x9bd, Single, Lo); (0x9be, First, Mc);
   (0x9c0, Last, Mc); (0x9c1, First, Mn); (0x9c4, Last, Mn); (0x9c7, First, Mc); (0x9c8, Last, Mc); (0x9cb, First, Mc);
   (0x9cc, Last, Mc); (0x9cd, Single, Mn); (0x9ce, Single, Lo); (0x9d7, Single, Mc); (0x9dc, First, Lo); (0x9dd, Last, Lo);
   (0x9df, First, Lo); (0x9e1, Last, Lo); (0x9e2, First, Mn); (0x9e3, Last, Mn); (0x9e6, First, Nd); (0x9ef, Last, Nd);
   (0x9f0, First, Lo); (0x9f1, Last, Lo); (0x9f2, First, Sc); (0x9f3, Last, Sc); (0x9f4, First, No); (0x9f9, Last, No);
   (0x9fa, Single, So); (0x9fb, Single, Sc); (0x9fc, Single, Lo); (0x9fd, Single, Po); (0x9fe, Single, Mn); (0xa01, First, Mn);
   (0xa02, Last, Mn); (0xa03, Single, Mc); (0xa05, First, Lo); (0xa0a, Last, Lo); (0xa0f, First, Lo); (0xa10, Last, Lo);
   (0xa13, First, Lo); (0xa28, Last, Lo); (0xa2a, First, Lo); (0xa30, Last, Lo); (0xa32, First, Lo); (0xa33, Last, Lo);
   (0xa35, First, Lo); (0xa36, Last, Lo); (0xa38, First, Lo); (0xa39, Last, Lo); (0xa3c, Single, Mn); (0xa3e, First, Mc);
   (0xa40, Last, Mc); (0xa41, First, Mn); (0xa42, Last, Mn); (0xa47, First, Mn); (0xa48, Last, Mn); (0xa4b, First, Mn);
   (0xa4d, Last, Mn); (0xa51, Single, Mn); (0xa59, First, Lo); (0xa5c, Last, Lo); (0xa5e, Single, Lo); (0xa66, First, Nd);
   (0xa6f, Last, Nd); (0xa70, First, Mn); (0xa71, Last, Mn); (0xa72, First, Lo); (0xa74, Last, Lo); (0xa75, Single, Mn);
   (0xa76, Single, Po); (0xa81, First, Mn); (0xa82, Last, Mn); (0xa83, Single, Mc); (0xa85, First, Lo); (0xa8d, Last, Lo);
   (0xa8f, First, Lo); (0xa91, Last, Lo); (0xa93, First, Lo); (0xaa8, Last, Lo); (0xaaa, First, Lo); (0xab0, Last, Lo);
   (0xab2, First, Lo); (0xab3, Last, Lo); (0xab5, First, Lo); (0xab9, Last, Lo); (0xabc, Single, Mn); (0xabd, Single, Lo);
   (0xabe, First, Mc); (0xac0, Last, Mc); (0xac1, First, Mn); (0xac5, Last, Mn); (0xac7, First, Mn); (0xac8, Last, Mn);
   (0xac9, Single, Mc); (0xacb, First, Mc); (0xacc, Last, Mc); (0xacd, Single, Mn); (0xad0, Single, Lo); (0xae0, First, Lo);
   (0xae1, Last, Lo); (0xae2, First, Mn); (0xae3, Last, Mn); (0xae6, First, Nd); (0xaef, Last, Nd); (0xaf0, Single, Po);
   (0xaf1, Single, Sc); (0xaf9, Single, Lo); (0xafa, First, Mn); (0xaff, Last, Mn); (0xb01, Single, Mn); (0xb02, First, Mc);
   (0xb03, Last, Mc); (0xb05, First, Lo); (0xb0c, Last, Lo); (0xb0f, First, Lo); (0xb10, Last, Lo); (0xb13, First, Lo);
   (0xb28, Last, Lo); (0xb2a, First, Lo); (0xb30, Last, Lo); (0xb32, First, Lo); (0xb33, Last, Lo); (0xb35, First, Lo);
   (0xb39, Last, Lo); (0xb3c, Single, Mn); (0xb3d, Single, Lo); (0xb3e, Single, Mc); (0xb3f, Single, Mn); (0xb40, Single, Mc);
   (0xb41, First, Mn); (0xb44, Last, Mn); (0xb47, First, Mc); (0xb48, Last, Mc); (0xb4b, First, Mc); (0xb4c, Last, Mc);
   (0xb4d, Single, Mn); (0xb55, First, Mn); (0xb56, Last, Mn); (0xb57, Single, Mc); (0xb5c, First, Lo); (0xb5d, Last, Lo);
   (0xb5f, First, Lo); (0xb61, Last, Lo); (0xb62, First, Mn); (0xb63, Last, Mn); (0xb66, First, Nd); (0xb6f, Last, Nd);
   (0xb70, Single, So); (0xb71, Single, Lo); (0xb72, First, No); (0xb77, Last, No); (0xb82, Single, Mn); (0xb83, Single, Lo);
   (0xb85, First, Lo); (0xb8a, Last, Lo); (0xb8e, First, Lo); (0xb90, Last, Lo); (0xb92, First, Lo); (0xb95, Last, Lo);
   (0xb99, First, Lo); (0xb9a, Last, Lo); (0xb9c, Single, Lo); (0xb9e, First, Lo); (0xb9f, Last, Lo); (0xba3, First, Lo);
   (0xba4, Last, Lo); (0xba8, First, Lo); (0xbaa, Last, Lo); (0xbae, First, Lo); (0xbb9, Last, Lo); (0xbbe, First, Mc);
   (0xbbf, Last, Mc); (0xbc0, Single, Mn); (0xbc1, First, Mc); (0xbc2, Last, Mc); (0xbc6, First, Mc); (0xbc8, Last, Mc);
   (0xbca, First, Mc); (0xbcc, Last, Mc); (0xbcd, Single, Mn); (0xbd0, Single, Lo); (0xbd7, Single, Mc); (0xbe6, First, Nd);
   (0xbef, Last, Nd); (0xbf0, First, No); (0xbf2, Last, No); (0xbf3, First, So); (0xbf8, Last, So); (0xbf9, Single, Sc);
   (0xbfa, Single, So); (0xc00, Single, Mn); (0xc01, First, Mc); (0xc03, Last, Mc); (0xc04, Single, Mn); (0xc05, First, Lo);
   (0xc0c, Last, Lo); (0xc0e, First, Lo); (0xc10, Last, Lo); (0xc12, First, Lo); (0xc28, Last, Lo); (0xc2a, First, Lo);
   (0xc39, Last, Lo); (0xc3d, Single, Lo); (0xc3e, First, Mn); (0xc40, Last, Mn); (0xc41, First, Mc); (0xc44, Last, Mc);
   (0xc46, First, Mn); (0xc48, Last, Mn); (0xc4a, First, Mn); (0xc4d, Last, Mn); (0xc55, First, Mn); (0xc56, Last, Mn);
   (0xc58, First, Lo); (0xc5a, Last, Lo); (0xc60, First, Lo); (0xc61, Last, Lo); (0xc62, First, Mn); (0xc63, Last, Mn);
   (0xc66, First, Nd); (0xc6f, Last, Nd); (0xc77, Single, Po); (0xc78, First, No); (0xc7e, Last, No); (0xc7f, Single, So);
   (0xc80, Single, Lo); (0xc81, Single, Mn); (0xc82, First, Mc); (0xc83, Last, Mc); (0xc84, Single, Po); (0xc85, First, Lo);
   (0xc8c, Last, Lo); (0xc8e, First, Lo); (0xc90, Last, Lo); (0xc92, First, Lo); (0xca8, Last, Lo); (0xcaa, First, Lo);
   (0xcb3, Last, Lo); (0xcb5, First, Lo); (0xcb9, Last, Lo); (0xcbc, Single, Mn); (0xcbd, Single, Lo); (0xcbe, Single, Mc);
   (0xcbf, Single, Mn); (0xcc0, First, Mc); (0xcc4, Last, Mc); (0xcc6, Single, Mn); (0xcc7, First, Mc); (0xcc8, Last, Mc);
   (0xcca, First, Mc); (0xccb, Last, Mc); (0xccc, First, Mn); (0xccd, Last, Mn); (0xcd5, First, Mc); (0xcd6, Last, Mc);
   (0xcde, Single, Lo); (0xce0, First, Lo); (0xce1, Last, Lo); (0xce2, First, Mn); (0xce3, Last, Mn); (0xce6, First, Nd);
   (0xcef, Last, Nd); (0xcf1, First, Lo); (0xcf2, Last, Lo); (0xd00, First, Mn); (0xd01, Last, Mn); (0xd02, First, Mc);
   (0xd03, Last, Mc); (0xd04, First, Lo); (0xd0c, Last, Lo); (0xd0e, First, Lo); (0xd10, Last, Lo); (0xd12, First, Lo);
   (0xd3a, Last, Lo); (0xd3b, First, Mn); (0xd3c, Last, Mn); (0xd3d, Single, Lo); (0xd3e, First, Mc); (0xd40, Last, Mc);
   (0xd41, First, Mn); (0xd44, Last, Mn); (0xd46, First, Mc); (0xd48, Last, Mc); (0xd4a, First, Mc); (0xd4c, Last, Mc);
   (0xd4d, Single, Mn); (0xd4e, Single, Lo); (0xd4f, Single, So); (0xd54, First, Lo); (0xd56, Last, Lo); (0xd57, Single, Mc);
   (0xd58, First, No); (0xd5e, Last, No); (0xd5f, First, Lo); (0xd61, Last, Lo); (0xd62, First, Mn); (0xd63, Last, Mn);
   (0xd66, First, Nd); (0xd6f, Last, Nd); (0xd70, First, No); (0xd78, Last, No); (0xd79, Single, So); (0xd7a, First, Lo);
   (0xd7f, Last, Lo); (0xd81, Single, Mn); (0xd82, First, Mc); (0xd83, Last, Mc); (0xd85, First, Lo); (0xd96, Last, Lo);
   (0xd9a, First, Lo); (0xdb1, Last, Lo); (0xdb3, First, Lo); (0xdbb, Last, Lo); (0xdbd, Single, Lo); (0xdc0, First, Lo);
   (0xdc6, Last, Lo); (0xdca, Single, Mn); (0xdcf, First, Mc); (0xdd1, Last, Mc); (0xdd2, First, Mn); (0xdd4, Last, Mn);
   (0xdd6, Single, Mn); (0xdd8, First, Mc); (0xddf, Last, Mc); (0xde6, First, Nd); (0xdef, Last, Nd); (0xdf2, First, Mc);
   (0xdf3, Last, Mc); (0xdf4, Single, Po); (0xe01, First, Lo); (0xe30, Last, Lo); (0xe31, Single, Mn); (0xe32, First, Lo);
   (0xe33, Last, Lo); (0xe34, First, Mn); (0xe3a, Last, Mn); (0xe3f, Single, Sc); (0xe40, First, Lo); (0xe45, Last, Lo);
   (0xe46, Single, Lm); (0xe47, First, Mn); (0xe4e, Last, Mn); (0xe4f, Single, Po); (0xe50, First, Nd); (0xe59, Last, Nd);
   (0xe5a, First, Po); (0xe5b, Last, Po); (0xe81, First, Lo); (0xe82, Last, Lo); (0xe84, Single, Lo); (0xe86, First, Lo);
   (0xe8a, Last, Lo); (0xe8c, First, Lo); (0xea3, Last, Lo); (0xea5, Single, Lo); (0xea7, First, Lo); (0xeb0, Last, Lo);
   (0xeb1, Single, Mn); (0xeb2, First, Lo); (0xeb3, Last, Lo); (0xeb4, First, Mn); (0xebc, Last, Mn); (0xebd, Single, Lo);
   (0xec0, First, Lo); (0xec4, Last, Lo); (0xec6, Single, Lm); (0xec8, First, Mn); (0xecd, Last, Mn); (0xed0, First, Nd);
   (0xed9, Last, Nd); (0xedc, First, Lo); (0xedf, Last, Lo); (0xf00, Single, Lo); (0xf01, First, So); (0xf03, Last, So);
   (0xf04, First, Po); (0xf12, Last, Po); (0xf13, Single, So); (0xf14, Single, Po); (0xf15, First, So); (0xf17, Last, So);
   (0xf18, First, Mn); (0xf19, Last, Mn); (0xf1a, First, So); (0xf1f, Last, So); (0xf20, First, Nd); (0xf29, Last, Nd);
   (0xf2a, First, No); (0xf33, Last, No); (0xf34, Single, So); (0xf35, Single, Mn); (0xf36, Single, So); (0xf37, Single, Mn);
   (0xf38, Single, So); (0xf39, Single, Mn); (0xf3a, Single, Ps); (0xf3b, Single, Pe); (0xf3c, Single, Ps); (0xf3d, Single, Pe);
   (0xf3e, First, Mc); (0xf3f, Last, Mc); (0xf40, First, Lo); (0xf47, Last, Lo); (0xf49, First, Lo); (0xf6c, Last, Lo);
   (0xf71, First, Mn); (0xf7e, Last, Mn); (0xf7f, Single, Mc); (0xf80, First, Mn); (0xf84, Last, Mn); (0xf85, Single, Po);
   (0xf86, First, Mn); (0xf87, Last, Mn); (0xf88, First, Lo); (0xf8c, Last, Lo); (0xf8d, First, Mn); (0xf97, Last, Mn);
   (0xf99, First, Mn); (0xfbc, Last, Mn); (0xfbe, First, So); (0xfc5, Last, So); (0xfc6, Single, Mn); (0xfc7, First, So);
   (0xfcc, Last, So); (0xfce, First, So); (0xfcf, Last, So); (0xfd0, First, Po); (0xfd4, Last, Po); (0xfd5, First, So);
   (0xfd8, Last, So); (0xfd9, First, Po); (0xfda, Last, Po); (0x1000, First, Lo); (0x102a, Last, Lo); (0x102b, First, Mc);
   (0x102c, Last, Mc); (0x102d, First, Mn); (0x1030, Last, Mn); (0x1031, Single, Mc); (0x1032, First, Mn); (0x1037, Last, Mn);
   (0x1038, Single, Mc); (0x1039, First, Mn); (0x103a, Last, Mn); (0x103b, First, Mc); (0x103c, Last, Mc); (0x103d, First, Mn);
   (0x103e, Last, Mn); (0x103f, Single, Lo); (0x1040, First, Nd); (0x1049, Last, Nd); (0x104a, First, Po); (0x104f, Last, Po);
   (0x1050, First, Lo); (0x1055, Last, Lo); (0x1056, First, Mc); (0x1057, Last, Mc); (0x1058, First, Mn); (0x1059, Last, Mn);
   (0x105a, First, Lo); (0x105d, Last, Lo); (0x105e, First, Mn); (0x1060, Last, Mn); (0x1061, Single, Lo); (0x1062, First, Mc);
   (0x1064, Last, Mc); (0x1065, First, Lo); (0x1066, Last, Lo); (0x1067, First, Mc); (0x106d, Last, Mc); (0x106e, First, Lo);
   (0x1070, Last, Lo); (0x1071, First, Mn); (0x1074, Last, Mn); (0x1075, First, Lo); (0x1081, Last, Lo); (0x1082, Single, Mn);
   (0x1083, First, Mc); (0x1084, Last, Mc); (0x1085, First, Mn); (0x1086, Last, Mn); (0x1087, First, Mc); (0x108c, Last, Mc);
   (0x108d, Single, Mn); (0x108e, Single, Lo); (0x108f, Single, Mc); (0x1090, First, Nd); (0x1099, Last, Nd); (0x109a, First, Mc);
   (0x109c, Last, Mc); (0x109d, Single, Mn); (0x109e, First, So); (0x109f, Last, So); (0x10a0, First, Lu); (0x10c5, Last, Lu);
   (0x10c7, Single, Lu); (0x10cd, Single, Lu); (0x10d0, First, Ll); (0x10fa, Last, Ll); (0x10fb, Single, Po); (0x10fc, Single, Lm);
   (0x10fd, First, Ll); (0x10ff, Last, Ll); (0x1100, First, Lo); (0x1248, Last, Lo); (0x124a, First, Lo); (0x124d, Last, Lo);
   (0x1250, First, Lo); (0x1256, Last, Lo); (0x1258, Single, Lo); (0x125a, First, Lo); (0x125d, Last, Lo); (0x1260, First, Lo);
   (0x1288, Last, Lo); (0x128a, First, Lo); (0x128d, Last, Lo); (0x1290, First, Lo); (0x12b0, Last, Lo); (0x12b2, First, Lo);
   (0x12b5, Last, Lo); (0x12b8, First, Lo); (0x12be, Last, Lo); (0x12c0, Single, Lo); (0x12c2, First, Lo); (0x12c5, Last, Lo);
   (0x12c8, First, Lo); (0x12d6, Last, Lo); (0x12d8, First, Lo); (0x1310, Last, Lo); (0x1312, First, Lo); (0x1315, Last, Lo);
   (0x1318, First, Lo); (0x135a, Last, Lo); (0x135d, First, Mn); (0x135f, Last, Mn); (0x1360, First, Po); (0x1368, Last, Po);
   (0x1369, First, No); (0x137c, Last, No); (0x1380, First, Lo); (0x138f, Last, Lo); (0x1390, First, So); (0x1399, Last, So);
   (0x13a0, First, Lu); (0x13f5, Last, Lu); (0x13f8, First, Ll); (0x13fd, Last, Ll); (0x1400, Single, Pd); (0x1401, First, Lo);
   (0x166c, Last, Lo); (0x166d, Single, So); (0x166e, Single, Po); (0x166f, First, Lo); (0x167f, Last, Lo); (0x1680, Single, Zs);
   (0x1681, First, Lo); (0x169a, Last, Lo); (0x169b, Single, Ps); (0x169c, Single, Pe); (0x16a0, First, Lo); (0x16ea, Last, Lo);
   (0x16eb, First, Po); (0x16ed, Last, Po); (0x16ee, First, Nl); (0x16f0, Last, Nl); (0x16f1, First, Lo); (0x16f8, Last, Lo);
   (0x1700, First, Lo); (0x170c, Last, Lo); (0x170e, First, Lo); (0x1711, Last, Lo); (0x1712, First, Mn); (0x1714, Last, Mn);
   (0x1720, First, Lo); (0x1731, Last, Lo); (0x1732, First, Mn); (0x1734, Last, Mn); (0x1735, First, Po); (0x1736, Last, Po);
   (0x1740, First, Lo); (0x1751, Last, Lo); (0x1752, First, Mn); (0x1753, Last, Mn); (0x1760, First, Lo); (0x176c, Last, Lo);
   (0x176e, First, Lo); (0x1770, Last, Lo); (0x1772, First, Mn); (0x1773, Last, Mn); (0x1780, First, Lo); (0x17b3, Last, Lo);
   (0x17b4, First, Mn); (0x17b5, Last, Mn); (0x17b6, Single, Mc); (0x17b7, First, Mn); (0x17bd, Last, Mn); (0x17be, First, Mc);
   (0x17c5, Last, Mc); (0x17c6, Single, Mn); (0x17c7, First, Mc); (0x17c8, Last, Mc); (0x17c9, First, Mn); (0x17d3, Last, Mn);
   (0x17d4, First, Po); (0x17d6, Last, Po); (0x17d7, Single, Lm); (0x17d8, First, Po); (0x17da, Last, Po); (0x17db, Single, Sc);
   (0x17dc, Single, Lo); (0x17dd, Single, Mn); (0x17e0, First, Nd); (0x17e9, Last, Nd); (0x17f0, First, No); (0x17f9, Last, No);
   (0x1800, First, Po); (0x1805, Last, Po); (0x1806, Single, Pd); (0x1807, First, Po); (0x180a, Last, Po); (0x180b, First, Mn);
   (0x180d, Last, Mn); (0x180e, Single, Cf); (0x1810, First, Nd); (0x1819, Last, Nd); (0x1820, First, Lo); (0x1842, Last, Lo);
   (0x1843, Single, Lm); (0x1844, First, Lo); (0x1878, Last, Lo); (0x1880, First, Lo); (0x1884, Last, Lo); (0x1885, First, Mn);
   (0x1886, Last, Mn); (0x1887, First, Lo); (0x18a8, Last, Lo); (0x18a9, Single, Mn); (0x18aa, Single, Lo); (0x18b0, First, Lo);
   (0x18f5, Last, Lo); (0x1900, First, Lo); (0x191e, Last, Lo); (0x1920, First, Mn); (0x1922, Last, Mn); (0x1923, First, Mc);
   (0x1926, Last, Mc); (0x1927, First, Mn); (0x1928, Last, Mn); (0x1929, First, Mc); (0x192b, Last, Mc); (0x1930, First, Mc);
   (0x1931, Last, Mc); (0x1932, Single, Mn); (0x1933, First, Mc); (0x1938, Last, Mc); (0x1939, First, Mn); (0x193b, Last, Mn);
   (0x1940, Single, So); (0x1944, First, Po); (0x1945, Last, Po); (0x1946, First, Nd); (0x194f, Last, Nd); (0x1950, First, Lo);
   (0x196d, Last, Lo); (0x1970, First, Lo); (0x1974, Last, Lo); (0x1980, First, Lo); (0x19ab, Last, Lo); (0x19b0, First, Lo);
   (0x19c9, Last, Lo); (0x19d0, First, Nd); (0x19d9, Last, Nd); (0x19da, Single, No); (0x19de, First, So); (0x19ff, Last, So);
   (0x1a00, First, Lo); (0x1a16, Last, Lo); (0x1a17, First, Mn); (0x1a18, Last, Mn); (0x1a19, First, Mc); (0x1a1a, Last, Mc);
   (0x1a1b, Single, Mn); (0x1a1e, First, Po); (0x1a1f, Last, Po); (0x1a20, First, Lo); (0x1a54, Last, Lo); (0x1a55, Single, Mc);
   (0x1a56, Single, Mn); (0x1a57, Single, Mc); (0x1a58, First, Mn); (0x1a5e, Last, Mn); (0x1a60, Single, Mn); (0x1a61, Single, Mc);
   (0x1a62, Single, Mn); (0x1a63, First, Mc); (0x1a64, Last, Mc); (0x1a65, First, Mn); (0x1a6c, Last, Mn); (0x1a6d, First, Mc);
   (0x1a72, Last, Mc); (0x1a73, First, Mn); (0x1a7c, Last, Mn); (0x1a7f, Single, Mn); (0x1a80, First, Nd); (0x1a89, Last, Nd);
   (0x1a90, First, Nd); (0x1a99, Last, Nd); (0x1aa0, First, Po); (0x1aa6, Last, Po); (0x1aa7, Single, Lm); (0x1aa8, First, Po);
   (0x1aad, Last, Po); (0x1ab0, First, Mn); (0x1abd, Last, Mn); (0x1abe, Single, Me); (0x1abf, First, Mn); (0x1ac0, Last, Mn);
   (0x1b00, First, Mn); (0x1b03, Last, Mn); (0x1b04, Single, Mc); (0x1b05, First, Lo); (0x1b33, Last, Lo); (0x1b34, Single, Mn);
   (0x1b35, Single, Mc); (0x1b36, First, Mn); (0x1b3a, Last, Mn); (0x1b3b, Single, Mc); (0x1b3c, Single, Mn); (0x1b3d, First, Mc);
   (0x1b41, Last, Mc); (0x1b42, Single, Mn); (0x1b43, First, Mc); (0x1b44, Last, Mc); (0x1b45, First, Lo); (0x1b4b, Last, Lo);
   (0x1b50, First, Nd); (0x1b59, Last, Nd); (0x1b5a, First, Po); (0x1b60, Last, Po); (0x1b61, First, So); (0x1b6a, Last, So);
   (0x1b6b, First, Mn); (0x1b73, Last, Mn); (0x1b74, First, So); (0x1b7c, Last, So); (0x1b80, First, Mn); (0x1b81, Last, Mn);
   (0x1b82, Single, Mc); (0x1b83, First, Lo); (0x1ba0, Last, Lo); (0x1ba1, Single, Mc); (0x1ba2, First, Mn); (0x1ba5, Last, Mn);
   (0x1ba6, First, Mc); (0x1ba7, Last, Mc); (0x1ba8, First, Mn); (0x1ba9, Last, Mn); (0x1baa, Single, Mc); (0x1bab, First, Mn);
   (0x1bad, Last, Mn); (0x1bae, First, Lo); (0x1baf, Last, Lo); (0x1bb0, First, Nd); (0x1bb9, Last, Nd); (0x1bba, First, Lo);
   (0x1be5, Last, Lo); (0x1be6, Single, Mn); (0x1be7, Single, Mc); (0x1be8, First, Mn); (0x1be9, Last, Mn); (0x1bea, First, Mc);
   (0x1bec, Last, Mc); (0x1bed, Single, Mn); (0x1bee, Single, Mc); (0x1bef, First, Mn); (0x1bf1, Last, Mn); (0x1bf2, First, Mc);
   (0x1bf3, Last, Mc); (0x1bfc, First, Po); (0x1bff, Last, Po); (0x1c00, First, Lo); (0x1c23, Last, Lo); (0x1c24, First, Mc);
   (0x1c2b, Last, Mc); (0x1c2c, First, Mn); (0x1c33, Last, Mn); (0x1c34, First, Mc); (0x1c35, Last, Mc); (0x1c36, First, Mn);
   (0x1c37, Last, Mn); (0x1c3b, First, Po); (0x1c3f, Last, Po); (0x1c40, First, Nd); (0x1c49, Last, Nd); (0x1c4d, First, Lo);
   (0x1c4f, Last, Lo); (0x1c50, First, Nd); (0x1c59, Last, Nd); (0x1c5a, First, Lo); (0x1c77, Last, Lo); (0x1c78, First, Lm);
   (0x1c7d, Last, Lm); (0x1c7e, First, Po); (0x1c7f, Last, Po); (0x1c80, First, Ll); (0x1c88, Last, Ll); (0x1c90, First, Lu);
   (0x1cba, Last, Lu); (0x1cbd, First, Lu); (0x1cbf, Last, Lu); (0x1cc0, First, Po); (0x1cc7, Last, Po); (0x1cd0, First, Mn);
   (0x1cd2, Last, Mn); (0x1cd3, Single, Po); (0x1cd4, First, Mn); (0x1ce0, Last, Mn); (0x1ce1, Single, Mc); (0x1ce2, First, Mn);
   (0x1ce8, Last, Mn); (0x1ce9, First, Lo); (0x1cec, Last, Lo); (0x1ced, Single, Mn); (0x1cee, First, Lo); (0x1cf3, Last, Lo);
   (0x1cf4, Single, Mn); (0x1cf5, First, Lo); (0x1cf6, Last, Lo); (0x1cf7, Single, Mc); (0x1cf8, First, Mn); (0x1cf9, Last, Mn);
   (0x1cfa, Single, Lo); (0x1d00, First, Ll); (0x1d2b, Last, Ll); (0x1d2c, First, Lm); (0x1d6a, Last, Lm); (0x1d6b, First, Ll);
   (0x1d77, Last, Ll); (0x1d78, Single, Lm); (0x1d79, First, Ll); (0x1d9a, Last, Ll); (0x1d9b, First, Lm); (0x1dbf, Last, Lm);
   (0x1dc0, First, Mn); (0x1df9, Last, Mn); (0x1dfb, First, Mn); (0x1dff, Last, Mn); (0x1e00, Single, Lu); (0x1e01, Single, Ll);
   (0x1e02, Single, Lu); (0x1e03, Single, Ll); (0x1e04, Single, Lu); (0x1e05, Single, Ll); (0x1e06, Single, Lu); (0x1e07, Single, Ll);
   (0x1e08, Single, Lu); (0x1e09, Single, Ll); (0x1e0a, Single, Lu); (0x1e0b, Single, Ll); (0x1e0c, Single, Lu); (0x1e0d, Single, Ll);
   (0x1e0e, Single, Lu); (0x1e0f, Single, Ll); (0x1e10, Single, Lu); (0x1e11, Single, Ll); (0x1e12, Single, Lu); (0x1e13, Single, Ll);
   (0x1e14, Single, Lu); (0x1e15, Single, Ll); (0x1e16, Single, Lu); (0x1e17, Single, Ll); (0x1e18, Single, Lu); (0x1e19, Single, Ll);
   (0x1e1a, Single, Lu); (0x1e1b, Single, Ll); (0x1e1c, Single, Lu); (0x1e1d, Single, Ll); (0x1e1e, Single, Lu); (0x1e1f, Single, Ll);
   (0x1e20, Single, Lu); (0x1e21, Single, Ll); (0x1e22, Single, Lu); (0x1e23, Single, Ll); (0x1e24, Single, Lu); (0x1e25, Single, Ll);
   (0x1e26, Single, Lu); (0x1e27, Single, Ll); (0x1e28, Single, Lu); (0x1e29, Single, Ll); (0x1e2a, Single, Lu); (0x1e2b, Single, Ll);
   (0x1e2c, Single, Lu); (0x1e2d, Single, Ll); (0x1e2e, Single, Lu); (0x1e2f, Single, Ll); (0x1e30, Single, Lu); (0x1e31, Single, Ll);
   (0x1e32, Single, Lu); (0x1e33, Single, Ll); (0x1e34, Single, Lu); (0x1e35, Single, Ll); (0x1e36, Single, Lu); (0x1e37, Single, Ll);
   (0x1e38, Single, Lu); (0x1e39, Single, Ll); (0x1e3a, Single, Lu); (0x1e3b, Single, Ll); (0x1e3c, Single, Lu); (0x1e3d, Single, Ll);
   (0x1e3e, Single, Lu); (0x1e3f, Single, Ll); (0x1e40, Single, Lu); (0x1e41, Single, Ll); (0x1e42, Single, Lu); (0x1e43, Single, Ll);
   (0x1e44, Single, Lu); (0x1e45, Single, Ll); (0x1e46, Single, Lu); (0x1e47, Single, Ll); (0x1e48, Single, Lu); (0x1e49, Single, Ll);
   (0x1e4a, Single, Lu); (0x1e4b, Single, Ll); (0x1e4c, Single, Lu); (0x1e4d, Single, Ll); (0x1e4e, Single, Lu); (0x1e4f, Single, Ll);
   (0x1e50, Single, Lu); (0x1e51, Single, Ll); (0x1e52, Single, Lu); (0x1e53, Single, Ll); (0x1e54, Single, Lu); (0x1e55, Single, Ll);
   (0x1e56, Single, Lu); (0x1e57, Single, Ll); (0x1e58, Single, Lu); (0x1e59, Single, Ll); (0x1e5a, Single, Lu); (0x1e5b, Single, Ll);
   (0x1e5c, Single, Lu); (0x1e5d, Single, Ll); (0x1e5e, Single, Lu); (0x1e5f, Single, Ll); (0x1e60, Single, Lu); (0x1e61, Single, Ll);
   (0x1e62, Single, Lu); (0x1e63, Single, Ll); (0x1e64, Single, Lu); (0x1e65, Single, Ll); (0x1e66, Single, Lu); (0x1e67, Single, Ll);
   (0x1e68, Single, Lu); (0x1e69, Single, Ll); (0x1e6a, Single, Lu); (0x1e6b, Single, Ll); (0x1e6c, Single, Lu); (0x1e6d, Single, Ll);
   (0x1e6e, Single, Lu); (0x1e6f, Single, Ll); (0x1e70, Single, Lu); (0x1e71, Single, Ll); (0x1e72, Single, Lu); (0x1e73, Single, Ll);
   (0x1e74, Single, Lu); (0x1e75, Single, Ll); (0x1e76, Single, Lu); (0x1e77, Single, Ll); (0x1e78, Single, Lu); (0x1e79, Single, Ll);
   (0x1e7a, Single, Lu); (0x1e7b, Single, Ll); (0x1e7c, Single, Lu); (0x1e7d, Single, Ll); (0x1e7e, Single, Lu); (0x1e7f, Single, Ll);
   (0x1e80, Single, Lu); (0x1e81, Single, Ll); (0x1e82, Single, Lu); (0x1e83, Single, Ll); (0x1e84, Single, Lu); (0x1e85, Single, Ll);
   (0x1e86, Single, Lu); (0x1e87, Single, Ll); (0x1e88, Single, Lu); (0x1e89, Single, Ll); (0x1e8a, Single, Lu); (0x1e8b, Single, Ll);
   (0x1e8c, Single, Lu); (0x1e8d, Single, Ll); (0x1e8e, Single, Lu); (0x1e8f, Single, Ll); (0x1e90, Single, Lu); (0x1e91, Single, Ll);
   (0x1e92, Single, Lu); (0x1e93, Single, Ll); (0x1e94, Single, Lu); (0x1e95, First, Ll); (0x1e9d, Last, Ll); (0x1e9e, Single, Lu);
   (0x1e9f, Single, Ll); (0x1ea0, Single, Lu); (0x1ea1, Single, Ll); (0x1ea2, Single, Lu); (0x1ea3, Single, Ll); (0x1ea4, Single, Lu);
   (0x1ea5, Single, Ll); (0x1ea6, Single, Lu); (0x1ea7, Single, Ll); (0x1ea8, Single, Lu); (0x1ea9, Single, Ll); (0x1eaa, Single, Lu);
   (0x1eab, Single, Ll); (0x1eac, Single, Lu); (0x1ead, Single, Ll); (0x1eae, Single, Lu); (0x1eaf, Single, Ll); (0x1eb0, Single, Lu);
   (0x1eb1, Single, Ll); (0x1eb2, Single, Lu); (0x1eb3, Single, Ll); (0x1eb4, Single, Lu); (0x1eb5, Single, Ll); (0x1eb6, Single, Lu);
   (0x1eb7, Single, Ll); (0x1eb8, Single, Lu); (0x1eb9, Single, Ll); (0x1eba, Single, Lu); (0x1ebb, Single, Ll); (0x1ebc, Single, Lu);
   (0x1ebd, Single, Ll); (0x1ebe, Single, Lu); (0x1ebf, Single, Ll); (0x1ec0, Single, Lu); (0x1ec1, Single, Ll); (0x1ec2, Single, Lu);
   (0x1ec3, Single, Ll); (0x1ec4, Single, Lu); (0x1ec5, Single, Ll); (0x1ec6, Single, Lu); (0x1ec7, Single, Ll); (0x1ec8, Single, Lu);
   (0x1ec9, Single, Ll); (0x1eca, Single, Lu); (0x1ecb, Single, Ll); (0x1ecc, Single, Lu); (0x1ecd, Single, Ll); (0x1ece, Single, Lu);
   (0x1ecf, Single, Ll); (0x1ed0, Single, Lu); (0x1ed1, Single, Ll); (0x1ed2, Single, Lu); (0x1ed3, Single, Ll); (0x1ed4, Single, Lu);
   (0x1ed5, Single, Ll); (0x1ed6, Single, Lu); (0x1ed7, Single, Ll); (0x1ed8, Single, Lu); (0x1ed9, Single, Ll); (0x1eda, Single, Lu);
   (0x1edb, Single, Ll); (0x1edc, Single, Lu); (0x1edd, Single, Ll); (0x1ede, Single, Lu); (0x1edf, Single, Ll); (0x1ee0, Single, Lu);
   (0x1ee1, Single, Ll); (0x1ee2, Single, Lu); (0x1ee3, Single, Ll); (0x1ee4, Single, Lu); (0x1ee5, Single, Ll); (0x1ee6, Single, Lu);
   (0x1ee7, Single, Ll); (0x1ee8, Single, Lu); (0x1ee9, Single, Ll); (0x1eea, Single, Lu); (0x1eeb, Single, Ll); (0x1eec, Single, Lu);
   (0x1eed, Single, Ll); (0x1eee, Single, Lu); (0x1eef, Single, Ll); (0x1ef0, Single, Lu); (0x1ef1, Single, Ll); (0x1ef2, Single, Lu);
   (0x1ef3, Single, Ll); (0x1ef4, Single, Lu); (0x1ef5, Single, Ll); (0x1ef6, Single, Lu); (0x1ef7, Single, Ll); (0x1ef8, Single, Lu);
   (0x1ef9, Single, Ll); (0x1efa, Single, Lu); (0x1efb, Single, Ll); (0x1efc, Single, Lu); (0x1efd, Single, Ll); (0x1efe, Single, Lu);
   (0x1eff, First, Ll); (0x1f07, Last, Ll); (0x1f08, First, Lu); (0x1f0f, Last, Lu); (0x1f10, First, Ll); (0x1f15, Last, Ll);
   (0x1f18, First, Lu); (0x1f1d, Last, Lu); (0x1f20, First, Ll); (0x1f27, Last, Ll); (0x1f28, First, Lu); (0x1f2f, Last, Lu);
   (0x1f30, First, Ll); (0x1f37, Last, Ll); (0x1f38, First, Lu); (0x1f3f, Last, Lu); (0x1f40, First, Ll); (0x1f45, Last, Ll);
   (0x1f48, First, Lu); (0x1f4d, Last, Lu); (0x1f50, First, Ll); (0x1f57, Last, Ll); (0x1f59, Single, Lu); (0x1f5b, Single, Lu);
   (0x1f5d, Single, Lu); (0x1f5f, Single, Lu); (0x1f60, First, Ll); (0x1f67, Last, Ll); (0x1f68, First, Lu); (0x1f6f, Last, Lu);
   (0x1f70, First, Ll); (0x1f7d, Last, Ll); (0x1f80, First, Ll); (0x1f87, Last, Ll); (0x1f88, First, Lt); (0x1f8f, Last, Lt);
   (0x1f90, First, Ll); (0x1f97, Last, Ll); (0x1f98, First, Lt); (0x1f9f, Last, Lt); (0x1fa0, First, Ll); (0x1fa7, Last, Ll);
   (0x1fa8, First, Lt); (0x1faf, Last, Lt); (0x1fb0, First, Ll); (0x1fb4, Last, Ll); (0x1fb6, First, Ll); (0x1fb7, Last, Ll);
   (0x1fb8, First, Lu); (0x1fbb, Last, Lu); (0x1fbc, Single, Lt); (0x1fbd, Single, Sk); (0x1fbe, Single, Ll); (0x1fbf, First, Sk);
   (0x1fc1, Last, Sk); (0x1fc2, First, Ll); (0x1fc4, Last, Ll); (0x1fc6, First, Ll); (0x1fc7, Last, Ll); (0x1fc8, First, Lu);
   (0x1fcb, Last, Lu); (0x1fcc, Single, Lt); (0x1fcd, First, Sk); (0x1fcf, Last, Sk); (0x1fd0, First, Ll); (0x1fd3, Last, Ll);
   (0x1fd6, First, Ll); (0x1fd7, Last, Ll); (0x1fd8, First, Lu); (0x1fdb, Last, Lu); (0x1fdd, First, Sk); (0x1fdf, Last, Sk);
   (0x1fe0, First, Ll); (0x1fe7, Last, Ll); (0x1fe8, First, Lu); (0x1fec, Last, Lu); (0x1fed, First, Sk); (0x1fef, Last, Sk);
   (0x1ff2, First, Ll); (0x1ff4, Last, Ll); (0x1ff6, First, Ll); (0x1ff7, Last, Ll); (0x1ff8, First, Lu); (0x1ffb, Last, Lu);
   (0x1ffc, Single, Lt); (0x1ffd, First, Sk); (0x1ffe, Last, Sk); (0x2000, First, Zs); (0x200a, Last, Zs); (0x200b, First, Cf);
   (0x200f, Last, Cf); (0x2010, First, Pd); (0x2015, Last, Pd); (0x2016, First, Po); (0x2017, Last, Po); (0x2018, Single, Pi);
   (0x2019, Single, Pf); (0x201a, Single, Ps); (0x201b, First, Pi); (0x201c, Last, Pi); (0x201d, Single, Pf); (0x201e, Single, Ps);
   (0x201f, Single, Pi); (0x2020, First, Po); (0x2027, Last, Po); (0x2028, Single, Zl); (0x2029, Single, Zp); (0x202a, First, Cf);
   (0x202e, Last, Cf); (0x202f, Single, Zs); (0x2030, First, Po); (0x2038, Last, Po); (0x2039, Single, Pi); (0x203a, Single, Pf);
   (0x203b, First, Po); (0x203e, Last, Po); (0x203f, First, Pc); (0x2040, Last, Pc); (0x2041, First, Po); (0x2043, Last, Po);
   (0x2044, Single, Sm); (0x2045, Single, Ps); (0x2046, Single, Pe); (0x2047, First, Po); (0x2051, Last, Po); (0x2052, Single, Sm);
   (0x2053, Single, Po); (0x2054, Single, Pc); (0x2055, First, Po); (0x205e, Last, Po); (0x205f, Single, Zs); (0x2060, First, Cf);
   (0x2064, Last, Cf); (0x2066, First, Cf); (0x206f, Last, Cf); (0x2070, Single, No); (0x2071, Single, Lm); (0x2074, First, No);
   (0x2079, Last, No); (0x207a, First, Sm); (0x207c, Last, Sm); (0x207d, Single, Ps); (0x207e, Single, Pe); (0x207f, Single, Lm);
   (0x2080, First, No); (0x2089, Last, No); (0x208a, First, Sm); (0x208c, Last, Sm); (0x208d, Single, Ps); (0x208e, Single, Pe);
   (0x2090, First, Lm); (0x209c, Last, Lm); (0x20a0, First, Sc); (0x20bf, Last, Sc); (0x20d0, First, Mn); (0x20dc, Last, Mn);
   (0x20dd, First, Me); (0x20e0, Last, Me); (0x20e1, Single, Mn); (0x20e2, First, Me); (0x20e4, Last, Me); (0x20e5, First, Mn);
   (0x20f0, Last, Mn); (0x2100, First, So); (0x2101, Last, So); (0x2102, Single, Lu); (0x2103, First, So); (0x2106, Last, So);
   (0x2107, Single, Lu); (0x2108, First, So); (0x2109, Last, So); (0x210a, Single, Ll); (0x210b, First, Lu); (0x210d, Last, Lu);
   (0x210e, First, Ll); (0x210f, Last, Ll); (0x2110, First, Lu); (0x2112, Last, Lu); (0x2113, Single, Ll); (0x2114, Single, So);
   (0x2115, Single, Lu); (0x2116, First, So); (0x2117, Last, So); (0x2118, Single, Sm); (0x2119, First, Lu); (0x211d, Last, Lu);
   (0x211e, First, So); (0x2123, Last, So); (0x2124, Single, Lu); (0x2125, Single, So); (0x2126, Single, Lu); (0x2127, Single, So);
   (0x2128, Single, Lu); (0x2129, Single, So); (0x212a, First, Lu); (0x212d, Last, Lu); (0x212e, Single, So); (0x212f, Single, Ll);
   (0x2130, First, Lu); (0x2133, Last, Lu); (0x2134, Single, Ll); (0x2135, First, Lo); (0x2138, Last, Lo); (0x2139, Single, Ll);
   (0x213a, First, So); (0x213b, Last, So); (0x213c, First, Ll); (0x213d, Last, Ll); (0x213e, First, Lu); (0x213f, Last, Lu);
   (0x2140, First, Sm); (0x2144, Last, Sm); (0x2145, Single, Lu); (0x2146, First, Ll); (0x2149, Last, Ll); (0x214a, Single, So);
   (0x214b, Single, Sm); (0x214c, First, So); (0x214d, Last, So); (0x214e, Single, Ll); (0x214f, Single, So); (0x2150, First, No);
   (0x215f, Last, No); (0x2160, First, Nl); (0x2182, Last, Nl); (0x2183, Single, Lu); (0x2184, Single, Ll); (0x2185, First, Nl);
   (0x2188, Last, Nl); (0x2189, Single, No); (0x218a, First, So); (0x218b, Last, So); (0x2190, First, Sm); (0x2194, Last, Sm);
   (0x2195, First, So); (0x2199, Last, So); (0x219a, First, Sm); (0x219b, Last, Sm); (0x219c, First, So); (0x219f, Last, So);
   (0x21a0, Single, Sm); (0x21a1, First, So); (0x21a2, Last, So); (0x21a3, Single, Sm); (0x21a4, First, So); (0x21a5, Last, So);
   (0x21a6, Single, Sm); (0x21a7, First, So); (0x21ad, Last, So); (0x21ae, Single, Sm); (0x21af, First, So); (0x21cd, Last, So);
   (0x21ce, First, Sm); (0x21cf, Last, Sm); (0x21d0, First, So); (0x21d1, Last, So); (0x21d2, Single, Sm); (0x21d3, Single, So);
   (0x21d4, Single, Sm); (0x21d5, First, So); (0x21f3, Last, So); (0x21f4, First, Sm); (0x22ff, Last, Sm); (0x2300, First, So);
   (0x2307, Last, So); (0x2308, Single, Ps); (0x2309, Single, Pe); (0x230a, Single, Ps); (0x230b, Single, Pe); (0x230c, First, So);
   (0x231f, Last, So); (0x2320, First, Sm); (0x2321, Last, Sm); (0x2322, First, So); (0x2328, Last, So); (0x2329, Single, Ps);
   (0x232a, Single, Pe); (0x232b, First, So); (0x237b, Last, So); (0x237c, Single, Sm); (0x237d, First, So); (0x239a, Last, So);
   (0x239b, First, Sm); (0x23b3, Last, Sm); (0x23b4, First, So); (0x23db, Last, So); (0x23dc, First, Sm); (0x23e1, Last, Sm);
   (0x23e2, First, So); (0x2426, Last, So); (0x2440, First, So); (0x244a, Last, So); (0x2460, First, No); (0x249b, Last, No);
   (0x249c, First, So); (0x24e9, Last, So); (0x24ea, First, No); (0x24ff, Last, No); (0x2500, First, So); (0x25b6, Last, So);
   (0x25b7, Single, Sm); (0x25b8, First, So); (0x25c0, Last, So); (0x25c1, Single, Sm); (0x25c2, First, So); (0x25f7, Last, So);
   (0x25f8, First, Sm); (0x25ff, Last, Sm); (0x2600, First, So); (0x266e, Last, So); (0x266f, Single, Sm); (0x2670, First, So);
   (0x2767, Last, So); (0x2768, Single, Ps); (0x2769, Single, Pe); (0x276a, Single, Ps); (0x276b, Single, Pe); (0x276c, Single, Ps);
   (0x276d, Single, Pe); (0x276e, Single, Ps); (0x276f, Single, Pe); (0x2770, Single, Ps); (0x2771, Single, Pe); (0x2772, Single, Ps);
   (0x2773, Single, Pe); (0x2774, Single, Ps); (0x2775, Single, Pe); (0x2776, First, No); (0x2793, Last, No); (0x2794, First, So);
   (0x27bf, Last, So); (0x27c0, First, Sm); (0x27c4, Last, Sm); (0x27c5, Single, Ps); (0x27c6, Single, Pe); (0x27c7, First, Sm);
   (0x27e5, Last, Sm); (0x27e6, Single, Ps); (0x27e7, Single, Pe); (0x27e8, Single, Ps); (0x27e9, Single, Pe); (0x27ea, Single, Ps);
   (0x27eb, Single, Pe); (0x27ec, Single, Ps); (0x27ed, Single, Pe); (0x27ee, Single, Ps); (0x27ef, Single, Pe); (0x27f0, First, Sm);
   (0x27ff, Last, Sm); (0x2800, First, So); (0x28ff, Last, So); (0x2900, First, Sm); (0x2982, Last, Sm); (0x2983, Single, Ps);
   (0x2984, Single, Pe); (0x2985, Single, Ps); (0x2986, Single, Pe); (0x2987, Single, Ps); (0x2988, Single, Pe); (0x2989, Single, Ps);
   (0x298a, Single, Pe); (0x298b, Single, Ps); (0x298c, Single, Pe); (0x298d, Single, Ps); (0x298e, Single, Pe); (0x298f, Single, Ps);
   (0x2990, Single, Pe); (0x2991, Single, Ps); (0x2992, Single, Pe); (0x2993, Single, Ps); (0x2994, Single, Pe); (0x2995, Single, Ps);
   (0x2996, Single, Pe); (0x2997, Single, Ps); (0x2998, Single, Pe); (0x2999, First, Sm); (0x29d7, Last, Sm); (0x29d8, Single, Ps);
   (0x29d9, Single, Pe); (0x29da, Single, Ps); (0x29db, Single, Pe); (0x29dc, First, Sm); (0x29fb, Last, Sm); (0x29fc, Single, Ps);
   (0x29fd, Single, Pe); (0x29fe, First, Sm); (0x2aff, Last, Sm); (0x2b00, First, So); (0x2b2f, Last, So); (0x2b30, First, Sm);
   (0x2b44, Last, Sm); (0x2b45, First, So); (0x2b46, Last, So); (0x2b47, First, Sm); (0x2b4c, Last, Sm); (0x2b4d, First, So);
   (0x2b73, Last, So); (0x2b76, First, So); (0x2b95, Last, So); (0x2b97, First, So); (0x2bff, Last, So); (0x2c00, First, Lu);
   (0x2c2e, Last, Lu); (0x2c30, First, Ll); (0x2c5e, Last, Ll); (0x2c60, Single, Lu); (0x2c61, Single, Ll); (0x2c62, First, Lu);
   (0x2c64, Last, Lu); (0x2c65, First, Ll); (0x2c66, Last, Ll); (0x2c67, Single, Lu); (0x2c68, Single, Ll); (0x2c69, Single, Lu);
   (0x2c6a, Single, Ll); (0x2c6b, Single, Lu); (0x2c6c, Single, Ll); (0x2c6d, First, Lu); (0x2c70, Last, Lu); (0x2c71, Single, Ll);
   (0x2c72, Single, Lu); (0x2c73, First, Ll); (0x2c74, Last, Ll); (0x2c75, Single, Lu); (0x2c76, First, Ll); (0x2c7b, Last, Ll);
   (0x2c7c, First, Lm); (0x2c7d, Last, Lm); (0x2c7e, First, Lu); (0x2c80, Last, Lu); (0x2c81, Single, Ll); (0x2c82, Single, Lu);
   (0x2c83, Single, Ll); (0x2c84, Single, Lu); (0x2c85, Single, Ll); (0x2c86, Single, Lu); (0x2c87, Single, Ll); (0x2c88, Single, Lu);
   (0x2c89, Single, Ll); (0x2c8a, Single, Lu); (0x2c8b, Single, Ll); (0x2c8c, Single, Lu); (0x2c8d, Single, Ll); (0x2c8e, Single, Lu);
   (0x2c8f, Single, Ll); (0x2c90, Single, Lu); (0x2c91, Single, Ll); (0x2c92, Single, Lu); (0x2c93, Single, Ll); (0x2c94, Single, Lu);
   (0x2c95, Single, Ll); (0x2c96, Single, Lu); (0x2c97, Single, Ll); (0x2c98, Single, Lu); (0x2c99, Single, Ll); (0x2c9a, Single, Lu);
   (0x2c9b, Single, Ll); (0x2c9c, Single, Lu); (0x2c9d, Single, Ll); (0x2c9e, Single, Lu); (0x2c9f, Single, Ll); (0x2ca0, Single, Lu);
   (0x2ca1, Single, Ll); (0x2ca2, Single, Lu); (0x2ca3, Single, Ll); (0x2ca4, Single, Lu); (0x2ca5, Single, Ll); (0x2ca6, Single, Lu);
   (0x2ca7, Single, Ll); (0x2ca8, Single, Lu); (0x2ca9, Single, Ll); (0x2caa, Single, Lu); (0x2cab, Single, Ll); (0x2cac, Single, Lu);
   (0x2cad, Single, Ll); (0x2cae, Single, Lu); (0x2caf, Single, Ll); (0x2cb0, Single, Lu); (0x2cb1, Single, Ll); (0x2cb2, Single, Lu);
   (0x2cb3, Single, Ll); (0x2cb4, Single, Lu); (0x2cb5, Single, Ll); (0x2cb6, Single, Lu); (0x2cb7, Single, Ll); (0x2cb8, Single, Lu);
   (0x2cb9, Single, Ll); (0x2cba, Single, Lu); (0x2cbb, Single, Ll); (0x2cbc, Single, Lu); (0x2cbd, Single, Ll); (0x2cbe, Single, Lu);
   (0x2cbf, Single, Ll); (0x2cc0, Single, Lu); (0x2cc1, Single, Ll); (0x2cc2, Single, Lu); (0x2cc3, Single, Ll); (0x2cc4, Single, Lu);
   (0x2cc5, Single, Ll); (0x2cc6, Single, Lu); (0x2cc7, Single, Ll); (0x2cc8, Single, Lu); (0x2cc9, Single, Ll); (0x2cca, Single, Lu);
   (0x2ccb, Single, Ll); (0x2ccc, Single, Lu); (0x2ccd, Single, Ll); (0x2cce, Single, Lu); (0x2ccf, Single, Ll); (0x2cd0, Single, Lu);
   (0x2cd1, Single, Ll); (0x2cd2, Single, Lu); (0x2cd3, Single, Ll); (0x2cd4, Single, Lu); (0x2cd5, Single, Ll); (0x2cd6, Single, Lu);
   (0x2cd7, Single, Ll); (0x2cd8, Single, Lu); (0x2cd9, Single, Ll); (0x2cda, Single, Lu); (0x2cdb, Single, Ll); (0x2cdc, Single, Lu);
   (0x2cdd, Single, Ll); (0x2cde, Single, Lu); (0x2cdf, Single, Ll); (0x2ce0, Single, Lu); (0x2ce1, Single, Ll); (0x2ce2, Single, Lu);
   (0x2ce3, First, Ll); (0x2ce4, Last, Ll); (0x2ce5, First, So); (0x2cea, Last, So); (0x2ceb, Single, Lu); (0x2cec, Single, Ll);
   (0x2ced, Single, Lu); (0x2cee, Single, Ll); (0x2cef, First, Mn); (0x2cf1, Last, Mn); (0x2cf2, Single, Lu); (0x2cf3, Single, Ll);
   (0x2cf9, First, Po); (0x2cfc, Last, Po); (0x2cfd, Single, No); (0x2cfe, First, Po); (0x2cff, Last, Po); (0x2d00, First, Ll);
   (0x2d25, Last, Ll); (0x2d27, Single, Ll); (0x2d2d, Single, Ll); (0x2d30, First, Lo); (0x2d67, Last, Lo); (0x2d6f, Single, Lm);
   (0x2d70, Single, Po); (0x2d7f, Single, Mn); (0x2d80, First, Lo); (0x2d96, Last, Lo); (0x2da0, First, Lo); (0x2da6, Last, Lo);
   (0x2da8, First, Lo); (0x2dae, Last, Lo); (0x2db0, First, Lo); (0x2db6, Last, Lo); (0x2db8, First, Lo); (0x2dbe, Last, Lo);
   (0x2dc0, First, Lo); (0x2dc6, Last, Lo); (0x2dc8, First, Lo); (0x2dce, Last, Lo); (0x2dd0, First, Lo); (0x2dd6, Last, Lo);
   (0x2dd8, First, Lo); (0x2dde, Last, Lo); (0x2de0, First, Mn); (0x2dff, Last, Mn); (0x2e00, First, Po); (0x2e01, Last, Po);
   (0x2e02, Single, Pi); (0x2e03, Single, Pf); (0x2e04, Single, Pi); (0x2e05, Single, Pf); (0x2e06, First, Po); (0x2e08, Last, Po);
   (0x2e09, Single, Pi); (0x2e0a, Single, Pf); (0x2e0b, Single, Po); (0x2e0c, Single, Pi); (0x2e0d, Single, Pf); (0x2e0e, First, Po);
   (0x2e16, Last, Po); (0x2e17, Single, Pd); (0x2e18, First, Po); (0x2e19, Last, Po); (0x2e1a, Single, Pd); (0x2e1b, Single, Po);
   (0x2e1c, Single, Pi); (0x2e1d, Single, Pf); (0x2e1e, First, Po); (0x2e1f, Last, Po); (0x2e20, Single, Pi); (0x2e21, Single, Pf);
   (0x2e22, Single, Ps); (0x2e23, Single, Pe); (0x2e24, Single, Ps); (0x2e25, Single, Pe); (0x2e26, Single, Ps); (0x2e27, Single, Pe);
   (0x2e28, Single, Ps); (0x2e29, Single, Pe); (0x2e2a, First, Po); (0x2e2e, Last, Po); (0x2e2f, Single, Lm); (0x2e30, First, Po);
   (0x2e39, Last, Po); (0x2e3a, First, Pd); (0x2e3b, Last, Pd); (0x2e3c, First, Po); (0x2e3f, Last, Po); (0x2e40, Single, Pd);
   (0x2e41, Single, Po); (0x2e42, Single, Ps); (0x2e43, First, Po); (0x2e4f, Last, Po); (0x2e50, First, So); (0x2e51, Last, So);
   (0x2e52, Single, Po); (0x2e80, First, So); (0x2e99, Last, So); (0x2e9b, First, So); (0x2ef3, Last, So); (0x2f00, First, So);
   (0x2fd5, Last, So); (0x2ff0, First, So); (0x2ffb, Last, So); (0x3000, Single, Zs); (0x3001, First, Po); (0x3003, Last, Po);
   (0x3004, Single, So); (0x3005, Single, Lm); (0x3006, Single, Lo); (0x3007, Single, Nl); (0x3008, Single, Ps); (0x3009, Single, Pe);
   (0x300a, Single, Ps); (0x300b, Single, Pe); (0x300c, Single, Ps); (0x300d, Single, Pe); (0x300e, Single, Ps); (0x300f, Single, Pe);
   (0x3010, Single, Ps); (0x3011, Single, Pe); (0x3012, First, So); (0x3013, Last, So); (0x3014, Single, Ps); (0x3015, Single, Pe);
   (0x3016, Single, Ps); (0x3017, Single, Pe); (0x3018, Single, Ps); (0x3019, Single, Pe); (0x301a, Single, Ps); (0x301b, Single, Pe);
   (0x301c, Single, Pd); (0x301d, Single, Ps); (0x301e, First, Pe); (0x301f, Last, Pe); (0x3020, Single, So); (0x3021, First, Nl);
   (0x3029, Last, Nl); (0x302a, First, Mn); (0x302d, Last, Mn); (0x302e, First, Mc); (0x302f, Last, Mc); (0x3030, Single, Pd);
   (0x3031, First, Lm); (0x3035, Last, Lm); (0x3036, First, So); (0x3037, Last, So); (0x3038, First, Nl); (0x303a, Last, Nl);
   (0x303b, Single, Lm); (0x303c, Single, Lo); (0x303d, Single, Po); (0x303e, First, So); (0x303f, Last, So); (0x3041, First, Lo);
   (0x3096, Last, Lo); (0x3099, First, Mn); (0x309a, Last, Mn); (0x309b, First, Sk); (0x309c, Last, Sk); (0x309d, First, Lm);
   (0x309e, Last, Lm); (0x309f, Single, Lo); (0x30a0, Single, Pd); (0x30a1, First, Lo); (0x30fa, Last, Lo); (0x30fb, Single, Po);
   (0x30fc, First, Lm); (0x30fe, Last, Lm); (0x30ff, Single, Lo); (0x3105, First, Lo); (0x312f, Last, Lo); (0x3131, First, Lo);
   (0x318e, Last, Lo); (0x3190, First, So); (0x3191, Last, So); (0x3192, First, No); (0x3195, Last, No); (0x3196, First, So);
   (0x319f, Last, So); (0x31a0, First, Lo); (0x31bf, Last, Lo); (0x31c0, First, So); (0x31e3, Last, So); (0x31f0, First, Lo);
   (0x31ff, Last, Lo); (0x3200, First, So); (0x321e, Last, So); (0x3220, First, No); (0x3229, Last, No); (0x322a, First, So);
   (0x3247, Last, So); (0x3248, First, No); (0x324f, Last, No); (0x3250, Single, So); (0x3251, First, No); (0x325f, Last, No);
   (0x3260, First, So); (0x327f, Last, So); (0x3280, First, No); (0x3289, Last, No); (0x328a, First, So); (0x32b0, Last, So);
   (0x32b1, First, No); (0x32bf, Last, No); (0x32c0, First, So); (0x33ff, Last, So); (0x3400, First, Lo); (0x4dbf, Last, Lo);
   (0x4dc0, First, So); (0x4dff, Last, So); (0x4e00, First, Lo); (0x9ffc, Last, Lo); (0xa000, First, Lo); (0xa014, Last, Lo);
   (0xa015, Single, Lm); (0xa016, First, Lo); (0xa48c, Last, Lo); (0xa490, First, So); (0xa4c6, Last, So); (0xa4d0, First, Lo);
   (0xa4f7, Last, Lo); (0xa4f8, First, Lm); (0xa4fd, Last, Lm); (0xa4fe, First, Po); (0xa4ff, Last, Po); (0xa500, First, Lo);
   (0xa60b, Last, Lo); (0xa60c, Single, Lm); (0xa60d, First, Po); (0xa60f, Last, Po); (0xa610, First, Lo); (0xa61f, Last, Lo);
   (0xa620, First, Nd); (0xa629, Last, Nd); (0xa62a, First, Lo); (0xa62b, Last, Lo); (0xa640, Single, Lu); (0xa641, Single, Ll);
   (0xa642, Single, Lu); (0xa643, Single, Ll); (0xa644, Single, Lu); (0xa645, Single, Ll); (0xa646, Single, Lu); (0xa647, Single, Ll);
   (0xa648, Single, Lu); (0xa649, Single, Ll); (0xa64a, Single, Lu); (0xa64b, Single, Ll); (0xa64c, Single, Lu); (0xa64d, Single, Ll);
   (0xa64e, Single, Lu); (0xa64f, Single, Ll); (0xa650, Single, Lu); (0xa651, Single, Ll); (0xa652, Single, Lu); (0xa653, Single, Ll);
   (0xa654, Single, Lu); (0xa655, Single, Ll); (0xa656, Single, Lu); (0xa657, Single, Ll); (0xa658, Single, Lu); (0xa659, Single, Ll);
   (0xa65a, Single, Lu); (0xa65b, Single, Ll); (0xa65c, Single, Lu); (0xa65d, Single, Ll); (0xa65e, Single, Lu); (0xa65f, Single, Ll);
   (0xa660, Single, Lu); (0xa661, Single, Ll); (0xa662, Single, Lu); (0xa663, Single, Ll); (0xa664, Single, Lu); (0xa665, Single, Ll);
   (0xa666, Single, Lu); (0xa667, Single, Ll); (0xa668, Single, Lu); (0xa669, Single, Ll); (0xa66a, Single, Lu); (0xa66b, Single, Ll);
   (0xa66c, Single, Lu); (0xa66d, Single, Ll); (0xa66e, Single, Lo); (0xa66f, Single, Mn); (0xa670, First, Me); (0xa672, Last, Me);
   (0xa673, Single, Po); (0xa674, First, Mn); (0xa67d, Last, Mn); (0xa67e, Single, Po); (0xa67f, Single, Lm); (0xa680, Single, Lu);
   (0xa681, Single, Ll); (0xa682, Single, Lu); (0xa683, Single, Ll); (0xa684, Single, Lu); (0xa685, Single, Ll); (0xa686, Single, Lu);
   (0xa687, Single, Ll); (0xa688, Single, Lu); (0xa689, Single, Ll); (0xa68a, Single, Lu); (0xa68b, Single, Ll); (0xa68c, Single, Lu);
   (0xa68d, Single, Ll); (0xa68e, Single, Lu); (0xa68f, Single, Ll); (0xa690, Single, Lu); (0xa691, Single, Ll); (0xa692, Single, Lu);
   (0xa693, Single, Ll); (0xa694, Single, Lu); (0xa695, Single, Ll); (0xa696, Single, Lu); (0xa697, Single, Ll); (0xa698, Single, Lu);
   (0xa699, Single, Ll); (0xa69a, Single, Lu); (0xa69b, Single, Ll); (0xa69c, First, Lm); (0xa69d, Last, Lm); (0xa69e, First, Mn);
   (0xa69f, Last, Mn); (0xa6a0, First, Lo); (0xa6e5, Last, Lo); (0xa6e6, First, Nl); (0xa6ef, Last, Nl); (0xa6f0, First, Mn);
   (0xa6f1, Last, Mn); (0xa6f2, First, Po); (0xa6f7, Last, Po); (0xa700, First, Sk); (0xa716, Last, Sk); (0xa717, First, Lm);
   (0xa71f, Last, Lm); (0xa720, First, Sk); (0xa721, Last, Sk); (0xa722, Single, Lu); (0xa723, Single, Ll); (0xa724, Single, Lu);
   (0xa725, Single, Ll); (0xa726, Single, Lu); (0xa727, Single, Ll); (0xa728, Single, Lu); (0xa729, Single, Ll); (0xa72a, Single, Lu);
   (0xa72b, Single, Ll); (0xa72c, Single, Lu); (0xa72d, Single, Ll); (0xa72e, Single, Lu); (0xa72f, First, Ll); (0xa731, Last, Ll);
   (0xa732, Single, Lu); (0xa733, Single, Ll); (0xa734, Single, Lu); (0xa735, Single, Ll); (0xa736, Single, Lu); (0xa737, Single, Ll);
   (0xa738, Single, Lu); (0xa739, Single, Ll); (0xa73a, Single, Lu); (0xa73b, Single, Ll); (0xa73c, Single, Lu); (0xa73d, Single, Ll);
   (0xa73e, Single, Lu); (0xa73f, Single, Ll); (0xa740, Single, Lu); (0xa741, Single, Ll); (0xa742, Single, Lu); (0xa743, Single, Ll);
   (0xa744, Single, Lu); (0xa745, Single, Ll); (0xa746, Single, Lu); (0xa747, Single, Ll); (0xa748, Single, Lu); (0xa749, Single, Ll);
   (0xa74a, Single, Lu); (0xa74b, Single, Ll); (0xa74c, Single, Lu); (0xa74d, Single, Ll); (0xa74e, Single, Lu); (0xa74f, Single, Ll);
   (0xa750, Single, Lu); (0xa751, Single, Ll); (0xa752, Single, Lu); (0xa753, Single, Ll); (0xa754, Single, Lu); (0xa755, Single, Ll);
   (0xa756, Single, Lu); (0xa757, Single, Ll); (0xa758, Single, Lu); (0xa759, Single, Ll); (0xa75a, Single, Lu); (0xa75b, Single, Ll);
   (0xa75c, Single, Lu); (0xa75d, Single, Ll); (0xa75e, Single, Lu); (0xa75f, Single, Ll); (0xa760, Single, Lu); (0xa761, Single, Ll);
   (0xa762, Single, Lu); (0xa763, Single, Ll); (0xa764, Single, Lu); (0xa765, Single, Ll); (0xa766, Single, Lu); (0xa767, Single, Ll);
   (0xa768, Single, Lu); (0xa769, Single, Ll); (0xa76a, Single, Lu); (0xa76b, Single, Ll); (0xa76c, Single, Lu); (0xa76d, Single, Ll);
   (0xa76e, Single, Lu); (0xa76f, Single, Ll); (0xa770, Single, Lm); (0xa771, First, Ll); (0xa778, Last, Ll); (0xa779, Single, Lu);
   (0xa77a, Single, Ll); (0xa77b, Single, Lu); (0xa77c, Single, Ll); (0xa77d, First, Lu); (0xa77e, Last, Lu); (0xa77f, Single, Ll);
   (0xa780, Single, Lu); (0xa781, Single, Ll); (0xa782, Single, Lu); (0xa783, Single, Ll); (0xa784, Single, Lu); (0xa785, Single, Ll);
   (0xa786, Single, Lu); (0xa787, Single, Ll); (0xa788, Single, Lm); (0xa789, First, Sk); (0xa78a, Last, Sk); (0xa78b, Single, Lu);
   (0xa78c, Single, Ll); (0xa78d, Single, Lu); (0xa78e, Single, Ll); (0xa78f, Single, Lo); (0xa790, Single, Lu); (0xa791, Single, Ll);
   (0xa792, Single, Lu); (0xa793, First, Ll); (0xa795, Last, Ll); (0xa796, Single, Lu); (0xa797, Single, Ll); (0xa798, Single, Lu);
   (0xa799, Single, Ll); (0xa79a, Single, Lu); (0xa79b, Single, Ll); (0xa79c, Single, Lu); (0xa79d, Single, Ll); (0xa79e, Single, Lu);
   (0xa79f, Single, Ll); (0xa7a0, Single, Lu); (0xa7a1, Single, Ll); (0xa7a2, Single, Lu); (0xa7a3, Single, Ll); (0xa7a4, Single, Lu);
   (0xa7a5, Single, Ll); (0xa7a6, Single, Lu); (0xa7a7, Single, Ll); (0xa7a8, Single, Lu); (0xa7a9, Single, Ll); (0xa7aa, First, Lu);
   (0xa7ae, Last, Lu); (0xa7af, Single, Ll); (0xa7b0, First, Lu); (0xa7b4, Last, Lu); (0xa7b5, Single, Ll); (0xa7b6, Single, Lu);
   (0xa7b7, Single, Ll); (0xa7b8, Single, Lu); (0xa7b9, Single, Ll); (0xa7ba, Single, Lu); (0xa7bb, Single, Ll); (0xa7bc, Single, Lu);
   (0xa7bd, Single, Ll); (0xa7be, Single, Lu); (0xa7bf, Single, Ll); (0xa7c2, Single, Lu); (0xa7c3, Single, Ll); (0xa7c4, First, Lu);
   (0xa7c7, Last, Lu); (0xa7c8, Single, Ll); (0xa7c9, Single, Lu); (0xa7ca, Single, Ll); (0xa7f5, Single, Lu); (0xa7f6, Single, Ll);
   (0xa7f7, Single, Lo); (0xa7f8, First, Lm); (0xa7f9, Last, Lm); (0xa7fa, Single, Ll); (0xa7fb, First, Lo); (0xa801, Last, Lo);
   (0xa802, Single, Mn); (0xa803, First, Lo); (0xa805, Last, Lo); (0xa806, Single, Mn); (0xa807, First, Lo); (0xa80a, Last, Lo);
   (0xa80b, Single, Mn); (0xa80c, First, Lo); (0xa822, Last, Lo); (0xa823, First, Mc); (0xa824, Last, Mc); (0xa825, First, Mn);
   (0xa826, Last, Mn); (0xa827, Single, Mc); (0xa828, First, So); (0xa82b, Last, So); (0xa82c, Single, Mn); (0xa830, First, No);
   (0xa835, Last, No); (0xa836, First, So); (0xa837, Last, So); (0xa838, Single, Sc); (0xa839, Single, So); (0xa840, First, Lo);
   (0xa873, Last, Lo); (0xa874, First, Po); (0xa877, Last, Po); (0xa880, First, Mc); (0xa881, Last, Mc); (0xa882, First, Lo);
   (0xa8b3, Last, Lo); (0xa8b4, First, Mc); (0xa8c3, Last, Mc); (0xa8c4, First, Mn); (0xa8c5, Last, Mn); (0xa8ce, First, Po);
   (0xa8cf, Last, Po); (0xa8d0, First, Nd); (0xa8d9, Last, Nd); (0xa8e0, First, Mn); (0xa8f1, Last, Mn); (0xa8f2, First, Lo);
   (0xa8f7, Last, Lo); (0xa8f8, First, Po); (0xa8fa, Last, Po); (0xa8fb, Single, Lo); (0xa8fc, Single, Po); (0xa8fd, First, Lo);
   (0xa8fe, Last, Lo); (0xa8ff, Single, Mn); (0xa900, First, Nd); (0xa909, Last, Nd); (0xa90a, First, Lo); (0xa925, Last, Lo);
   (0xa926, First, Mn); (0xa92d, Last, Mn); (0xa92e, First, Po); (0xa92f, Last, Po); (0xa930, First, Lo); (0xa946, Last, Lo);
   (0xa947, First, Mn); (0xa951, Last, Mn); (0xa952, First, Mc); (0xa953, Last, Mc); (0xa95f, Single, Po); (0xa960, First, Lo);
   (0xa97c, Last, Lo); (0xa980, First, Mn); (0xa982, Last, Mn); (0xa983, Single, Mc); (0xa984, First, Lo); (0xa9b2, Last, Lo);
   (0xa9b3, Single, Mn); (0xa9b4, First, Mc); (0xa9b5, Last, Mc); (0xa9b6, First, Mn); (0xa9b9, Last, Mn); (0xa9ba, First, Mc);
   (0xa9bb, Last, Mc); (0xa9bc, First, Mn); (0xa9bd, Last, Mn); (0xa9be, First, Mc); (0xa9c0, Last, Mc); (0xa9c1, First, Po);
   (0xa9cd, Last, Po); (0xa9cf, Single, Lm); (0xa9d0, First, Nd); (0xa9d9, Last, Nd); (0xa9de, First, Po); (0xa9df, Last, Po);
   (0xa9e0, First, Lo); (0xa9e4, Last, Lo); (0xa9e5, Single, Mn); (0xa9e6, Single, Lm); (0xa9e7, First, Lo); (0xa9ef, Last, Lo);
   (0xa9f0, First, Nd); (0xa9f9, Last, Nd); (0xa9fa, First, Lo); (0xa9fe, Last, Lo); (0xaa00, First, Lo); (0xaa28, Last, Lo);
   (0xaa29, First, Mn); (0xaa2e, Last, Mn); (0xaa2f, First, Mc); (0xaa30, Last, Mc); (0xaa31, First, Mn); (0xaa32, Last, Mn);
   (0xaa33, First, Mc); (0xaa34, Last, Mc); (0xaa35, First, Mn); (0xaa36, Last, Mn); (0xaa40, First, Lo); (0xaa42, Last, Lo);
   (0xaa43, Single, Mn); (0xaa44, First, Lo); (0xaa4b, Last, Lo); (0xaa4c, Single, Mn); (0xaa4d, Single, Mc); (0xaa50, First, Nd);
   (0xaa59, Last, Nd); (0xaa5c, First, Po); (0xaa5f, Last, Po); (0xaa60, First, Lo); (0xaa6f, Last, Lo); (0xaa70, Single, Lm);
   (0xaa71, First, Lo); (0xaa76, Last, Lo); (0xaa77, First, So); (0xaa79, Last, So); (0xaa7a, Single, Lo); (0xaa7b, Single, Mc);
   (0xaa7c, Single, Mn); (0xaa7d, Single, Mc); (0xaa7e, First, Lo); (0xaaaf, Last, Lo); (0xaab0, Single, Mn); (0xaab1, Single, Lo);
   (0xaab2, First, Mn); (0xaab4, Last, Mn); (0xaab5, First, Lo); (0xaab6, Last, Lo); (0xaab7, First, Mn); (0xaab8, Last, Mn);
   (0xaab9, First, Lo); (0xaabd, Last, Lo); (0xaabe, First, Mn); (0xaabf, Last, Mn); (0xaac0, Single, Lo); (0xaac1, Single, Mn);
   (0xaac2, Single, Lo); (0xaadb, First, Lo); (0xaadc, Last, Lo); (0xaadd, Single, Lm); (0xaade, First, Po); (0xaadf, Last, Po);
   (0xaae0, First, Lo); (0xaaea, Last, Lo); (0xaaeb, Single, Mc); (0xaaec, First, Mn); (0xaaed, Last, Mn); (0xaaee, First, Mc);
   (0xaaef, Last, Mc); (0xaaf0, First, Po); (0xaaf1, Last, Po); (0xaaf2, Single, Lo); (0xaaf3, First, Lm); (0xaaf4, Last, Lm);
   (0xaaf5, Single, Mc); (0xaaf6, Single, Mn); (0xab01, First, Lo); (0xab06, Last, Lo); (0xab09, First, Lo); (0xab0e, Last, Lo);
   (0xab11, First, Lo); (0xab16, Last, Lo); (0xab20, First, Lo); (0xab26, Last, Lo); (0xab28, First, Lo); (0xab2e, Last, Lo);
   (0xab30, First, Ll); (0xab5a, Last, Ll); (0xab5b, Single, Sk); (0xab5c, First, Lm); (0xab5f, Last, Lm); (0xab60, First, Ll);
   (0xab68, Last, Ll); (0xab69, Single, Lm); (0xab6a, First, Sk); (0xab6b, Last, Sk); (0xab70, First, Ll); (0xabbf, Last, Ll);
   (0xabc0, First, Lo); (0xabe2, Last, Lo); (0xabe3, First, Mc); (0xabe4, Last, Mc); (0xabe5, Single, Mn); (0xabe6, First, Mc);
   (0xabe7, Last, Mc); (0xabe8, Single, Mn); (0xabe9, First, Mc); (0xabea, Last, Mc); (0xabeb, Single, Po); (0xabec, Single, Mc);
   (0xabed, Single, Mn); (0xabf0, First, Nd); (0xabf9, Last, Nd); (0xac00, First, Lo); (0xd7a3, Last, Lo); (0xd7b0, First, Lo);
   (0xd7c6, Last, Lo); (0xd7cb, First, Lo); (0xd7fb, Last, Lo); (0xd800, First, Cs); (0xdfff, Last, Cs); (0xe000, First, Co);
   (0xf8ff, Last, Co); (0xf900, First, Lo); (0xfa6d, Last, Lo); (0xfa70, First, Lo); (0xfad9, Last, Lo); (0xfb00, First, Ll);
   (0xfb06, Last, Ll); (0xfb13, First, Ll); (0xfb17, Last, Ll); (0xfb1d, Single, Lo); (0xfb1e, Single, Mn); (0xfb1f, First, Lo);
   (0xfb28, Last, Lo); (0xfb29, Single, Sm); (0xfb2a, First, Lo); (0xfb36, Last, Lo); (0xfb38, First, Lo); (0xfb3c, Last, Lo);
   (0xfb3e, Single, Lo); (0xfb40, First, Lo); (0xfb41, Last, Lo); (0xfb43, First, Lo); (0xfb44, Last, Lo); (0xfb46, First, Lo);
   (0xfbb1, Last, Lo); (0xfbb2, First, Sk); (0xfbc1, Last, Sk); (0xfbd3, First, Lo); (0xfd3d, Last, Lo); (0xfd3e, Single, Pe);
   (0xfd3f, Single, Ps); (0xfd50, First, Lo); (0xfd8f, Last, Lo); (0xfd92, First, Lo); (0xfdc7, Last, Lo); (0xfdf0, First, Lo);
   (0xfdfb, Last, Lo); (0xfdfc, Single, Sc); (0xfdfd, Single, So); (0xfe00, First, Mn); (0xfe0f, Last, Mn); (0xfe10, First, Po);
   (0xfe16, Last, Po); (0xfe17, Single, Ps); (0xfe18, Single, Pe); (0xfe19, Single, Po); (0xfe20, First, Mn); (0xfe2f, Last, Mn);
   (0xfe30, Single, Po); (0xfe31, First, Pd); (0xfe32, Last, Pd); (0xfe33, First, Pc); (0xfe34, Last, Pc); (0xfe35, Single, Ps);
   (0xfe36, Single, Pe); (0xfe37, Single, Ps); (0xfe38, Single, Pe); (0xfe39, Single, Ps); (0xfe3a, Single, Pe); (0xfe3b, Single, Ps);
   (0xfe3c, Single, Pe); (0xfe3d, Single, Ps); (0xfe3e, Single, Pe); (0xfe3f, Single, Ps); (0xfe40, Single, Pe); (0xfe41, Single, Ps);
   (0xfe42, Single, Pe); (0xfe43, Single, Ps); (0xfe44, Single, Pe); (0xfe45, First, Po); (0xfe46, Last, Po); (0xfe47, Single, Ps);
   (0xfe48, Single, Pe); (0xfe49, First, Po); (0xfe4c, Last, Po); (0xfe4d, First, Pc); (0xfe4f, Last, Pc); (0xfe50, First, Po);
   (0xfe52, Last, Po); (0xfe54, First, Po); (0xfe57, Last, Po); (0xfe58, Single, Pd); (0xfe59, Single, Ps); (0xfe5a, Single, Pe);
   (0xfe5b, Single, Ps); (0xfe5c, Single, Pe); (0xfe5d, Single, Ps); (0xfe5e, Single, Pe); (0xfe5f, First, Po); (0xfe61, Last, Po);
   (0xfe62, Single, Sm); (0xfe63, Single, Pd); (0xfe64, First, Sm); (0xfe66, Last, Sm); (0xfe68, Single, Po); (0xfe69, Single, Sc);
   (0xfe6a, First, Po); (0xfe6b, Last, Po); (0xfe70, First, Lo); (0xfe74, Last, Lo); (0xfe76, First, Lo); (0xfefc, Last, Lo);
   (0xfeff, Single, Cf); (0xff01, First, Po); (0xff03, Last, Po); (0xff04, Single, Sc); (0xff05, First, Po); (0xff07, Last, Po);
   (0xff08, Single, Ps); (0xff09, Single, Pe); (0xff0a, Single, Po); (0xff0b, Single, Sm); (0xff0c, Single, Po); (0xff0d, Single, Pd);
   (0xff0e, First, Po); (0xff0f, Last, Po); (0xff10, First, Nd); (0xff19, Last, Nd); (0xff1a, First, Po); (0xff1b, Last, Po);
   (0xff1c, First, Sm); (0xff1e, Last, Sm); (0xff1f, First, Po); (0xff20, Last, Po); (0xff21, First, Lu); (0xff3a, Last, Lu);
   (0xff3b, Single, Ps); (0xff3c, Single, Po); (0xff3d, Single, Pe); (0xff3e, Single, Sk); (0xff3f, Single, Pc); (0xff40, Single, Sk);
   (0xff41, First, Ll); (0xff5a, Last, Ll); (0xff5b, Single, Ps); (0xff5c, Single, Sm); (0xff5d, Single, Pe); (0xff5e, Single, Sm);
   (0xff5f, Single, Ps); (0xff60, Single, Pe); (0xff61, Single, Po); (0xff62, Single, Ps); (0xff63, Single, Pe); (0xff64, First, Po);
   (0xff65, Last, Po); (0xff66, First, Lo); (0xff6f, Last, Lo); (0xff70, Single, Lm); (0xff71, First, Lo); (0xff9d, Last, Lo);
   (0xff9e, First, Lm); (0xff9f, Last, Lm); (0xffa0, First, Lo); (0xffbe, Last, Lo); (0xffc2, First, Lo); (0xffc7, Last, Lo);
   (0xffca, First, Lo); (0xffcf, Last, Lo); (0xffd2, First, Lo); (0xffd7, Last, Lo); (0xffda, First, Lo); (0xffdc, Last, Lo);
   (0xffe0, First, Sc); (0xffe1, Last, Sc); (0xffe2, Single, Sm); (0xffe3, Single, Sk); (0xffe4, Single, So); (0xffe5, First, Sc);
   (0xffe6, Last, Sc); (0xffe8, Single, So); (0xffe9, First, Sm); (0xffec, Last, Sm); (0xffed, First, So); (0xffee, Last, So);
   (0xfff9, First, Cf); (0xfffb, Last, Cf); (0xfffc, First, So); (0xfffd, Last, So); (0x10000, First, Lo); (0x1000b, Last, Lo);
   (0x1000d, First, Lo); (0x10026, Last, Lo); (0x10028, First, Lo); (0x1003a, Last, Lo); (0x1003c, First, Lo); (0x1003d, Last, Lo);
   (0x1003f, First, Lo); (0x1004d, Last, Lo); (0x10050, First, Lo); (0x1005d, Last, Lo); (0x10080, First, Lo); (0x100fa, Last, Lo);
   (0x10100, First, Po); (0x10102, Last, Po); (0x10107, First, No); (0x10133, Last, No); (0x10137, First, So); (0x1013f, Last, So);
   (0x10140, First, Nl); (0x10174, Last, Nl); (0x10175, First, No); (0x10178, Last, No); (0x10179, First, So); (0x10189, Last, So);
   (0x1018a, First, No); (0x1018b, Last, No); (0x1018c, First, So); (0x1018e, Last, So); (0x10190, First, So); (0x1019c, Last, So);
   (0x101a0, Single, So); (0x101d0, First, So); (0x101fc, Last, So); (0x101fd, Single, Mn); (0x10280, First, Lo); (0x1029c, Last, Lo);
   (0x102a0, First, Lo); (0x102d0, Last, Lo); (0x102e0, Single, Mn); (0x102e1, First, No); (0x102fb, Last, No); (0x10300, First, Lo);
   (0x1031f, Last, Lo); (0x10320, First, No); (0x10323, Last, No); (0x1032d, First, Lo); (0x10340, Last, Lo); (0x10341, Single, Nl);
   (0x10342, First, Lo); (0x10349, Last, Lo); (0x1034a, Single, Nl); (0x10350, First, Lo); (0x10375, Last, Lo); (0x10376, First, Mn);
   (0x1037a, Last, Mn); (0x10380, First, Lo); (0x1039d, Last, Lo); (0x1039f, Single, Po); (0x103a0, First, Lo); (0x103c3, Last, Lo);
   (0x103c8, First, Lo); (0x103cf, Last, Lo); (0x103d0, Single, Po); (0x103d1, First, Nl); (0x103d5, Last, Nl); (0x10400, First, Lu);
   (0x10427, Last, Lu); (0x10428, First, Ll); (0x1044f, Last, Ll); (0x10450, First, Lo); (0x1049d, Last, Lo); (0x104a0, First, Nd);
   (0x104a9, Last, Nd); (0x104b0, First, Lu); (0x104d3, Last, Lu); (0x104d8, First, Ll); (0x104fb, Last, Ll); (0x10500, First, Lo);
   (0x10527, Last, Lo); (0x10530, First, Lo); (0x10563, Last, Lo); (0x1056f, Single, Po); (0x10600, First, Lo); (0x10736, Last, Lo);
   (0x10740, First, Lo); (0x10755, Last, Lo); (0x10760, First, Lo); (0x10767, Last, Lo); (0x10800, First, Lo); (0x10805, Last, Lo);
   (0x10808, Single, Lo); (0x1080a, First, Lo); (0x10835, Last, Lo); (0x10837, First, Lo); (0x10838, Last, Lo); (0x1083c, Single, Lo);
   (0x1083f, First, Lo); (0x10855, Last, Lo); (0x10857, Single, Po); (0x10858, First, No); (0x1085f, Last, No); (0x10860, First, Lo);
   (0x10876, Last, Lo); (0x10877, First, So); (0x10878, Last, So); (0x10879, First, No); (0x1087f, Last, No); (0x10880, First, Lo);
   (0x1089e, Last, Lo); (0x108a7, First, No); (0x108af, Last, No); (0x108e0, First, Lo); (0x108f2, Last, Lo); (0x108f4, First, Lo);
   (0x108f5, Last, Lo); (0x108fb, First, No); (0x108ff, Last, No); (0x10900, First, Lo); (0x10915, Last, Lo); (0x10916, First, No);
   (0x1091b, Last, No); (0x1091f, Single, Po); (0x10920, First, Lo); (0x10939, Last, Lo); (0x1093f, Single, Po); (0x10980, First, Lo);
   (0x109b7, Last, Lo); (0x109bc, First, No); (0x109bd, Last, No); (0x109be, First, Lo); (0x109bf, Last, Lo); (0x109c0, First, No);
   (0x109cf, Last, No); (0x109d2, First, No); (0x109ff, Last, No); (0x10a00, Single, Lo); (0x10a01, First, Mn); (0x10a03, Last, Mn);
   (0x10a05, First, Mn); (0x10a06, Last, Mn); (0x10a0c, First, Mn); (0x10a0f, Last, Mn); (0x10a10, First, Lo); (0x10a13, Last, Lo);
   (0x10a15, First, Lo); (0x10a17, Last, Lo); (0x10a19, First, Lo); (0x10a35, Last, Lo); (0x10a38, First, Mn); (0x10a3a, Last, Mn);
   (0x10a3f, Single, Mn); (0x10a40, First, No); (0x10a48, Last, No); (0x10a50, First, Po); (0x10a58, Last, Po); (0x10a60, First, Lo);
   (0x10a7c, Last, Lo); (0x10a7d, First, No); (0x10a7e, Last, No); (0x10a7f, Single, Po); (0x10a80, First, Lo); (0x10a9c, Last, Lo);
   (0x10a9d, First, No); (0x10a9f, Last, No); (0x10ac0, First, Lo); (0x10ac7, Last, Lo); (0x10ac8, Single, So); (0x10ac9, First, Lo);
   (0x10ae4, Last, Lo); (0x10ae5, First, Mn); (0x10ae6, Last, Mn); (0x10aeb, First, No); (0x10aef, Last, No); (0x10af0, First, Po);
   (0x10af6, Last, Po); (0x10b00, First, Lo); (0x10b35, Last, Lo); (0x10b39, First, Po); (0x10b3f, Last, Po); (0x10b40, First, Lo);
   (0x10b55, Last, Lo); (0x10b58, First, No); (0x10b5f, Last, No); (0x10b60, First, Lo); (0x10b72, Last, Lo); (0x10b78, First, No);
   (0x10b7f, Last, No); (0x10b80, First, Lo); (0x10b91, Last, Lo); (0x10b99, First, Po); (0x10b9c, Last, Po); (0x10ba9, First, No);
   (0x10baf, Last, No); (0x10c00, First, Lo); (0x10c48, Last, Lo); (0x10c80, First, Lu); (0x10cb2, Last, Lu); (0x10cc0, First, Ll);
   (0x10cf2, Last, Ll); (0x10cfa, First, No); (0x10cff, Last, No); (0x10d00, First, Lo); (0x10d23, Last, Lo); (0x10d24, First, Mn);
   (0x10d27, Last, Mn); (0x10d30, First, Nd); (0x10d39, Last, Nd); (0x10e60, First, No); (0x10e7e, Last, No); (0x10e80, First, Lo);
   (0x10ea9, Last, Lo); (0x10eab, First, Mn); (0x10eac, Last, Mn); (0x10ead, Single, Pd); (0x10eb0, First, Lo); (0x10eb1, Last, Lo);
   (0x10f00, First, Lo); (0x10f1c, Last, Lo); (0x10f1d, First, No); (0x10f26, Last, No); (0x10f27, Single, Lo); (0x10f30, First, Lo);
   (0x10f45, Last, Lo); (0x10f46, First, Mn); (0x10f50, Last, Mn); (0x10f51, First, No); (0x10f54, Last, No); (0x10f55, First, Po);
   (0x10f59, Last, Po); (0x10fb0, First, Lo); (0x10fc4, Last, Lo); (0x10fc5, First, No); (0x10fcb, Last, No); (0x10fe0, First, Lo);
   (0x10ff6, Last, Lo); (0x11000, Single, Mc); (0x11001, Single, Mn); (0x11002, Single, Mc); (0x11003, First, Lo); (0x11037, Last, Lo);
   (0x11038, First, Mn); (0x11046, Last, Mn); (0x11047, First, Po); (0x1104d, Last, Po); (0x11052, First, No); (0x11065, Last, No);
   (0x11066, First, Nd); (0x1106f, Last, Nd); (0x1107f, First, Mn); (0x11081, Last, Mn); (0x11082, Single, Mc); (0x11083, First, Lo);
   (0x110af, Last, Lo); (0x110b0, First, Mc); (0x110b2, Last, Mc); (0x110b3, First, Mn); (0x110b6, Last, Mn); (0x110b7, First, Mc);
   (0x110b8, Last, Mc); (0x110b9, First, Mn); (0x110ba, Last, Mn); (0x110bb, First, Po); (0x110bc, Last, Po); (0x110bd, Single, Cf);
   (0x110be, First, Po); (0x110c1, Last, Po); (0x110cd, Single, Cf); (0x110d0, First, Lo); (0x110e8, Last, Lo); (0x110f0, First, Nd);
   (0x110f9, Last, Nd); (0x11100, First, Mn); (0x11102, Last, Mn); (0x11103, First, Lo); (0x11126, Last, Lo); (0x11127, First, Mn);
   (0x1112b, Last, Mn); (0x1112c, Single, Mc); (0x1112d, First, Mn); (0x11134, Last, Mn); (0x11136, First, Nd); (0x1113f, Last, Nd);
   (0x11140, First, Po); (0x11143, Last, Po); (0x11144, Single, Lo); (0x11145, First, Mc); (0x11146, Last, Mc); (0x11147, Single, Lo);
   (0x11150, First, Lo); (0x11172, Last, Lo); (0x11173, Single, Mn); (0x11174, First, Po); (0x11175, Last, Po); (0x11176, Single, Lo);
   (0x11180, First, Mn); (0x11181, Last, Mn); (0x11182, Single, Mc); (0x11183, First, Lo); (0x111b2, Last, Lo); (0x111b3, First, Mc);
   (0x111b5, Last, Mc); (0x111b6, First, Mn); (0x111be, Last, Mn); (0x111bf, First, Mc); (0x111c0, Last, Mc); (0x111c1, First, Lo);
   (0x111c4, Last, Lo); (0x111c5, First, Po); (0x111c8, Last, Po); (0x111c9, First, Mn); (0x111cc, Last, Mn); (0x111cd, Single, Po);
   (0x111ce, Single, Mc); (0x111cf, Single, Mn); (0x111d0, First, Nd); (0x111d9, Last, Nd); (0x111da, Single, Lo); (0x111db, Single, Po);
   (0x111dc, Single, Lo); (0x111dd, First, Po); (0x111df, Last, Po); (0x111e1, First, No); (0x111f4, Last, No); (0x11200, First, Lo);
   (0x11211, Last, Lo); (0x11213, First, Lo); (0x1122b, Last, Lo); (0x1122c, First, Mc); (0x1122e, Last, Mc); (0x1122f, First, Mn);
   (0x11231, Last, Mn); (0x11232, First, Mc); (0x11233, Last, Mc); (0x11234, Single, Mn); (0x11235, Single, Mc); (0x11236, First, Mn);
   (0x11237, Last, Mn); (0x11238, First, Po); (0x1123d, Last, Po); (0x1123e, Single, Mn); (0x11280, First, Lo); (0x11286, Last, Lo);
   (0x11288, Single, Lo); (0x1128a, First, Lo); (0x1128d, Last, Lo); (0x1128f, First, Lo); (0x1129d, Last, Lo); (0x1129f, First, Lo);
   (0x112a8, Last, Lo); (0x112a9, Single, Po); (0x112b0, First, Lo); (0x112de, Last, Lo); (0x112df, Single, Mn); (0x112e0, First, Mc);
   (0x112e2, Last, Mc); (0x112e3, First, Mn); (0x112ea, Last, Mn); (0x112f0, First, Nd); (0x112f9, Last, Nd); (0x11300, First, Mn);
   (0x11301, Last, Mn); (0x11302, First, Mc); (0x11303, Last, Mc); (0x11305, First, Lo); (0x1130c, Last, Lo); (0x1130f, First, Lo);
   (0x11310, Last, Lo); (0x11313, First, Lo); (0x11328, Last, Lo); (0x1132a, First, Lo); (0x11330, Last, Lo); (0x11332, First, Lo);
   (0x11333, Last, Lo); (0x11335, First, Lo); (0x11339, Last, Lo); (0x1133b, First, Mn); (0x1133c, Last, Mn); (0x1133d, Single, Lo);
   (0x1133e, First, Mc); (0x1133f, Last, Mc); (0x11340, Single, Mn); (0x11341, First, Mc); (0x11344, Last, Mc); (0x11347, First, Mc);
   (0x11348, Last, Mc); (0x1134b, First, Mc); (0x1134d, Last, Mc); (0x11350, Single, Lo); (0x11357, Single, Mc); (0x1135d, First, Lo);
   (0x11361, Last, Lo); (0x11362, First, Mc); (0x11363, Last, Mc); (0x11366, First, Mn); (0x1136c, Last, Mn); (0x11370, First, Mn);
   (0x11374, Last, Mn); (0x11400, First, Lo); (0x11434, Last, Lo); (0x11435, First, Mc); (0x11437, Last, Mc); (0x11438, First, Mn);
   (0x1143f, Last, Mn); (0x11440, First, Mc); (0x11441, Last, Mc); (0x11442, First, Mn); (0x11444, Last, Mn); (0x11445, Single, Mc);
   (0x11446, Single, Mn); (0x11447, First, Lo); (0x1144a, Last, Lo); (0x1144b, First, Po); (0x1144f, Last, Po); (0x11450, First, Nd);
   (0x11459, Last, Nd); (0x1145a, First, Po); (0x1145b, Last, Po); (0x1145d, Single, Po); (0x1145e, Single, Mn); (0x1145f, First, Lo);
   (0x11461, Last, Lo); (0x11480, First, Lo); (0x114af, Last, Lo); (0x114b0, First, Mc); (0x114b2, Last, Mc); (0x114b3, First, Mn);
   (0x114b8, Last, Mn); (0x114b9, Single, Mc); (0x114ba, Single, Mn); (0x114bb, First, Mc); (0x114be, Last, Mc); (0x114bf, First, Mn);
   (0x114c0, Last, Mn); (0x114c1, Single, Mc); (0x114c2, First, Mn); (0x114c3, Last, Mn); (0x114c4, First, Lo); (0x114c5, Last, Lo);
   (0x114c6, Single, Po); (0x114c7, Single, Lo); (0x114d0, First, Nd); (0x114d9, Last, Nd); (0x11580, First, Lo); (0x115ae, Last, Lo);
   (0x115af, First, Mc); (0x115b1, Last, Mc); (0x115b2, First, Mn); (0x115b5, Last, Mn); (0x115b8, First, Mc); (0x115bb, Last, Mc);
   (0x115bc, First, Mn); (0x115bd, Last, Mn); (0x115be, Single, Mc); (0x115bf, First, Mn); (0x115c0, Last, Mn); (0x115c1, First, Po);
   (0x115d7, Last, Po); (0x115d8, First, Lo); (0x115db, Last, Lo); (0x115dc, First, Mn); (0x115dd, Last, Mn); (0x11600, First, Lo);
   (0x1162f, Last, Lo); (0x11630, First, Mc); (0x11632, Last, Mc); (0x11633, First, Mn); (0x1163a, Last, Mn); (0x1163b, First, Mc);
   (0x1163c, Last, Mc); (0x1163d, Single, Mn); (0x1163e, Single, Mc); (0x1163f, First, Mn); (0x11640, Last, Mn); (0x11641, First, Po);
   (0x11643, Last, Po); (0x11644, Single, Lo); (0x11650, First, Nd); (0x11659, Last, Nd); (0x11660, First, Po); (0x1166c, Last, Po);
   (0x11680, First, Lo); (0x116aa, Last, Lo); (0x116ab, Single, Mn); (0x116ac, Single, Mc); (0x116ad, Single, Mn); (0x116ae, First, Mc);
   (0x116af, Last, Mc); (0x116b0, First, Mn); (0x116b5, Last, Mn); (0x116b6, Single, Mc); (0x116b7, Single, Mn); (0x116b8, Single, Lo);
   (0x116c0, First, Nd); (0x116c9, Last, Nd); (0x11700, First, Lo); (0x1171a, Last, Lo); (0x1171d, First, Mn); (0x1171f, Last, Mn);
   (0x11720, First, Mc); (0x11721, Last, Mc); (0x11722, First, Mn); (0x11725, Last, Mn); (0x11726, Single, Mc); (0x11727, First, Mn);
   (0x1172b, Last, Mn); (0x11730, First, Nd); (0x11739, Last, Nd); (0x1173a, First, No); (0x1173b, Last, No); (0x1173c, First, Po);
   (0x1173e, Last, Po); (0x1173f, Single, So); (0x11800, First, Lo); (0x1182b, Last, Lo); (0x1182c, First, Mc); (0x1182e, Last, Mc);
   (0x1182f, First, Mn); (0x11837, Last, Mn); (0x11838, Single, Mc); (0x11839, First, Mn); (0x1183a, Last, Mn); (0x1183b, Single, Po);
   (0x118a0, First, Lu); (0x118bf, Last, Lu); (0x118c0, First, Ll); (0x118df, Last, Ll); (0x118e0, First, Nd); (0x118e9, Last, Nd);
   (0x118ea, First, No); (0x118f2, Last, No); (0x118ff, First, Lo); (0x11906, Last, Lo); (0x11909, Single, Lo); (0x1190c, First, Lo);
   (0x11913, Last, Lo); (0x11915, First, Lo); (0x11916, Last, Lo); (0x11918, First, Lo); (0x1192f, Last, Lo); (0x11930, First, Mc);
   (0x11935, Last, Mc); (0x11937, First, Mc); (0x11938, Last, Mc); (0x1193b, First, Mn); (0x1193c, Last, Mn); (0x1193d, Single, Mc);
   (0x1193e, Single, Mn); (0x1193f, Single, Lo); (0x11940, Single, Mc); (0x11941, Single, Lo); (0x11942, Single, Mc); (0x11943, Single, Mn);
   (0x11944, First, Po); (0x11946, Last, Po); (0x11950, First, Nd); (0x11959, Last, Nd); (0x119a0, First, Lo); (0x119a7, Last, Lo);
   (0x119aa, First, Lo); (0x119d0, Last, Lo); (0x119d1, First, Mc); (0x119d3, Last, Mc); (0x119d4, First, Mn); (0x119d7, Last, Mn);
   (0x119da, First, Mn); (0x119db, Last, Mn); (0x119dc, First, Mc); (0x119df, Last, Mc); (0x119e0, Single, Mn); (0x119e1, Single, Lo);
   (0x119e2, Single, Po); (0x119e3, Single, Lo); (0x119e4, Single, Mc); (0x11a00, Single, Lo); (0x11a01, First, Mn); (0x11a0a, Last, Mn);
   (0x11a0b, First, Lo); (0x11a32, Last, Lo); (0x11a33, First, Mn); (0x11a38, Last, Mn); (0x11a39, Single, Mc); (0x11a3a, Single, Lo);
   (0x11a3b, First, Mn); (0x11a3e, Last, Mn); (0x11a3f, First, Po); (0x11a46, Last, Po); (0x11a47, Single, Mn); (0x11a50, Single, Lo);
   (0x11a51, First, Mn); (0x11a56, Last, Mn); (0x11a57, First, Mc); (0x11a58, Last, Mc); (0x11a59, First, Mn); (0x11a5b, Last, Mn);
   (0x11a5c, First, Lo); (0x11a89, Last, Lo); (0x11a8a, First, Mn); (0x11a96, Last, Mn); (0x11a97, Single, Mc); (0x11a98, First, Mn);
   (0x11a99, Last, Mn); (0x11a9a, First, Po); (0x11a9c, Last, Po); (0x11a9d, Single, Lo); (0x11a9e, First, Po); (0x11aa2, Last, Po);
   (0x11ac0, First, Lo); (0x11af8, Last, Lo); (0x11c00, First, Lo); (0x11c08, Last, Lo); (0x11c0a, First, Lo); (0x11c2e, Last, Lo);
   (0x11c2f, Single, Mc); (0x11c30, First, Mn); (0x11c36, Last, Mn); (0x11c38, First, Mn); (0x11c3d, Last, Mn); (0x11c3e, Single, Mc);
   (0x11c3f, Single, Mn); (0x11c40, Single, Lo); (0x11c41, First, Po); (0x11c45, Last, Po); (0x11c50, First, Nd); (0x11c59, Last, Nd);
   (0x11c5a, First, No); (0x11c6c, Last, No); (0x11c70, First, Po); (0x11c71, Last, Po); (0x11c72, First, Lo); (0x11c8f, Last, Lo);
   (0x11c92, First, Mn); (0x11ca7, Last, Mn); (0x11ca9, Single, Mc); (0x11caa, First, Mn); (0x11cb0, Last, Mn); (0x11cb1, Single, Mc);
   (0x11cb2, First, Mn); (0x11cb3, Last, Mn); (0x11cb4, Single, Mc); (0x11cb5, First, Mn); (0x11cb6, Last, Mn); (0x11d00, First, Lo);
   (0x11d06, Last, Lo); (0x11d08, First, Lo); (0x11d09, Last, Lo); (0x11d0b, First, Lo); (0x11d30, Last, Lo); (0x11d31, First, Mn);
   (0x11d36, Last, Mn); (0x11d3a, Single, Mn); (0x11d3c, First, Mn); (0x11d3d, Last, Mn); (0x11d3f, First, Mn); (0x11d45, Last, Mn);
   (0x11d46, Single, Lo); (0x11d47, Single, Mn); (0x11d50, First, Nd); (0x11d59, Last, Nd); (0x11d60, First, Lo); (0x11d65, Last, Lo);
   (0x11d67, First, Lo); (0x11d68, Last, Lo); (0x11d6a, First, Lo); (0x11d89, Last, Lo); (0x11d8a, First, Mc); (0x11d8e, Last, Mc);
   (0x11d90, First, Mn); (0x11d91, Last, Mn); (0x11d93, First, Mc); (0x11d94, Last, Mc); (0x11d95, Single, Mn); (0x11d96, Single, Mc);
   (0x11d97, Single, Mn); (0x11d98, Single, Lo); (0x11da0, First, Nd); (0x11da9, Last, Nd); (0x11ee0, First, Lo); (0x11ef2, Last, Lo);
   (0x11ef3, First, Mn); (0x11ef4, Last, Mn); (0x11ef5, First, Mc); (0x11ef6, Last, Mc); (0x11ef7, First, Po); (0x11ef8, Last, Po);
   (0x11fb0, Single, Lo); (0x11fc0, First, No); (0x11fd4, Last, No); (0x11fd5, First, So); (0x11fdc, Last, So); (0x11fdd, First, Sc);
   (0x11fe0, Last, Sc); (0x11fe1, First, So); (0x11ff1, Last, So); (0x11fff, Single, Po); (0x12000, First, Lo); (0x12399, Last, Lo);
   (0x12400, First, Nl); (0x1246e, Last, Nl); (0x12470, First, Po); (0x12474, Last, Po); (0x12480, First, Lo); (0x12543, Last, Lo);
   (0x13000, First, Lo); (0x1342e, Last, Lo); (0x13430, First, Cf); (0x13438, Last, Cf); (0x14400, First, Lo); (0x14646, Last, Lo);
   (0x16800, First, Lo); (0x16a38, Last, Lo); (0x16a40, First, Lo); (0x16a5e, Last, Lo); (0x16a60, First, Nd); (0x16a69, Last, Nd);
   (0x16a6e, First, Po); (0x16a6f, Last, Po); (0x16ad0, First, Lo); (0x16aed, Last, Lo); (0x16af0, First, Mn); (0x16af4, Last, Mn);
   (0x16af5, Single, Po); (0x16b00, First, Lo); (0x16b2f, Last, Lo); (0x16b30, First, Mn); (0x16b36, Last, Mn); (0x16b37, First, Po);
   (0x16b3b, Last, Po); (0x16b3c, First, So); (0x16b3f, Last, So); (0x16b40, First, Lm); (0x16b43, Last, Lm); (0x16b44, Single, Po);
   (0x16b45, Single, So); (0x16b50, First, Nd); (0x16b59, Last, Nd); (0x16b5b, First, No); (0x16b61, Last, No); (0x16b63, First, Lo);
   (0x16b77, Last, Lo); (0x16b7d, First, Lo); (0x16b8f, Last, Lo); (0x16e40, First, Lu); (0x16e5f, Last, Lu); (0x16e60, First, Ll);
   (0x16e7f, Last, Ll); (0x16e80, First, No); (0x16e96, Last, No); (0x16e97, First, Po); (0x16e9a, Last, Po); (0x16f00, First, Lo);
   (0x16f4a, Last, Lo); (0x16f4f, Single, Mn); (0x16f50, Single, Lo); (0x16f51, First, Mc); (0x16f87, Last, Mc); (0x16f8f, First, Mn);
   (0x16f92, Last, Mn); (0x16f93, First, Lm); (0x16f9f, Last, Lm); (0x16fe0, First, Lm); (0x16fe1, Last, Lm); (0x16fe2, Single, Po);
   (0x16fe3, Single, Lm); (0x16fe4, Single, Mn); (0x16ff0, First, Mc); (0x16ff1, Last, Mc); (0x17000, First, Lo); (0x187f7, Last, Lo);
   (0x18800, First, Lo); (0x18cd5, Last, Lo); (0x18d00, First, Lo); (0x18d08, Last, Lo); (0x1b000, First, Lo); (0x1b11e, Last, Lo);
   (0x1b150, First, Lo); (0x1b152, Last, Lo); (0x1b164, First, Lo); (0x1b167, Last, Lo); (0x1b170, First, Lo); (0x1b2fb, Last, Lo);
   (0x1bc00, First, Lo); (0x1bc6a, Last, Lo); (0x1bc70, First, Lo); (0x1bc7c, Last, Lo); (0x1bc80, First, Lo); (0x1bc88, Last, Lo);
   (0x1bc90, First, Lo); (0x1bc99, Last, Lo); (0x1bc9c, Single, So); (0x1bc9d, First, Mn); (0x1bc9e, Last, Mn); (0x1bc9f, Single, Po);
   (0x1bca0, First, Cf); (0x1bca3, Last, Cf); (0x1d000, First, So); (0x1d0f5, Last, So); (0x1d100, First, So); (0x1d126, Last, So);
   (0x1d129, First, So); (0x1d164, Last, So); (0x1d165, First, Mc); (0x1d166, Last, Mc); (0x1d167, First, Mn); (0x1d169, Last, Mn);
   (0x1d16a, First, So); (0x1d16c, Last, So); (0x1d16d, First, Mc); (0x1d172, Last, Mc); (0x1d173, First, Cf); (0x1d17a, Last, Cf);
   (0x1d17b, First, Mn); (0x1d182, Last, Mn); (0x1d183, First, So); (0x1d184, Last, So); (0x1d185, First, Mn); (0x1d18b, Last, Mn);
   (0x1d18c, First, So); (0x1d1a9, Last, So); (0x1d1aa, First, Mn); (0x1d1ad, Last, Mn); (0x1d1ae, First, So); (0x1d1e8, Last, So);
   (0x1d200, First, So); (0x1d241, Last, So); (0x1d242, First, Mn); (0x1d244, Last, Mn); (0x1d245, Single, So); (0x1d2e0, First, No);
   (0x1d2f3, Last, No); (0x1d300, First, So); (0x1d356, Last, So); (0x1d360, First, No); (0x1d378, Last, No); (0x1d400, First, Lu);
   (0x1d419, Last, Lu); (0x1d41a, First, Ll); (0x1d433, Last, Ll); (0x1d434, First, Lu); (0x1d44d, Last, Lu); (0x1d44e, First, Ll);
   (0x1d454, Last, Ll); (0x1d456, First, Ll); (0x1d467, Last, Ll); (0x1d468, First, Lu); (0x1d481, Last, Lu); (0x1d482, First, Ll);
   (0x1d49b, Last, Ll); (0x1d49c, Single, Lu); (0x1d49e, First, Lu); (0x1d49f, Last, Lu); (0x1d4a2, Single, Lu); (0x1d4a5, First, Lu);
   (0x1d4a6, Last, Lu); (0x1d4a9, First, Lu); (0x1d4ac, Last, Lu); (0x1d4ae, First, Lu); (0x1d4b5, Last, Lu); (0x1d4b6, First, Ll);
   (0x1d4b9, Last, Ll); (0x1d4bb, Single, Ll); (0x1d4bd, First, Ll); (0x1d4c3, Last, Ll); (0x1d4c5, First, Ll); (0x1d4cf, Last, Ll);
   (0x1d4d0, First, Lu); (0x1d4e9, Last, Lu); (0x1d4ea, First, Ll); (0x1d503, Last, Ll); (0x1d504, First, Lu); (0x1d505, Last, Lu);
   (0x1d507, First, Lu); (0x1d50a, Last, Lu); (0x1d50d, First, Lu); (0x1d514, Last, Lu); (0x1d516, First, Lu); (0x1d51c, Last, Lu);
   (0x1d51e, First, Ll); (0x1d537, Last, Ll); (0x1d538, First, Lu); (0x1d539, Last, Lu); (0x1d53b, First, Lu); (0x1d53e, Last, Lu);
   (0x1d540, First, Lu); (0x1d544, Last, Lu); (0x1d546, Single, Lu); (0x1d54a, First, Lu); (0x1d550, Last, Lu); (0x1d552, First, Ll);
   (0x1d56b, Last, Ll); (0x1d56c, First, Lu); (0x1d585, Last, Lu); (0x1d586, First, Ll); (0x1d59f, Last, Ll); (0x1d5a0, First, Lu);
   (0x1d5b9, Last, Lu); (0x1d5ba, First, Ll); (0x1d5d3, Last, Ll); (0x1d5d4, First, Lu); (0x1d5ed, Last, Lu); (0x1d5ee, First, Ll);
   (0x1d607, Last, Ll); (0x1d608, First, Lu); (0x1d621, Last, Lu); (0x1d622, First, Ll); (0x1d63b, Last, Ll); (0x1d63c, First, Lu);
   (0x1d655, Last, Lu); (0x1d656, First, Ll); (0x1d66f, Last, Ll); (0x1d670, First, Lu); (0x1d689, Last, Lu); (0x1d68a, First, Ll);
   (0x1d6a5, Last, Ll); (0x1d6a8, First, Lu); (0x1d6c0, Last, Lu); (0x1d6c1, Single, Sm); (0x1d6c2, First, Ll); (0x1d6da, Last, Ll);
   (0x1d6db, Single, Sm); (0x1d6dc, First, Ll); (0x1d6e1, Last, Ll); (0x1d6e2, First, Lu); (0x1d6fa, Last, Lu); (0x1d6fb, Single, Sm);
   (0x1d6fc, First, Ll); (0x1d714, Last, Ll); (0x1d715, Single, Sm); (0x1d716, First, Ll); (0x1d71b, Last, Ll); (0x1d71c, First, Lu);
   (0x1d734, Last, Lu); (0x1d735, Single, Sm); (0x1d736, First, Ll); (0x1d74e, Last, Ll); (0x1d74f, Single, Sm); (0x1d750, First, Ll);
   (0x1d755, Last, Ll); (0x1d756, First, Lu); (0x1d76e, Last, Lu); (0x1d76f, Single, Sm); (0x1d770, First, Ll); (0x1d788, Last, Ll);
   (0x1d789, Single, Sm); (0x1d78a, First, Ll); (0x1d78f, Last, Ll); (0x1d790, First, Lu); (0x1d7a8, Last, Lu); (0x1d7a9, Single, Sm);
   (0x1d7aa, First, Ll); (0x1d7c2, Last, Ll); (0x1d7c3, Single, Sm); (0x1d7c4, First, Ll); (0x1d7c9, Last, Ll); (0x1d7ca, Single, Lu);
   (0x1d7cb, Single, Ll); (0x1d7ce, First, Nd); (0x1d7ff, Last, Nd); (0x1d800, First, So); (0x1d9ff, Last, So); (0x1da00, First, Mn);
   (0x1da36, Last, Mn); (0x1da37, First, So); (0x1da3a, Last, So); (0x1da3b, First, Mn); (0x1da6c, Last, Mn); (0x1da6d, First, So);
   (0x1da74, Last, So); (0x1da75, Single, Mn); (0x1da76, First, So); (0x1da83, Last, So); (0x1da84, Single, Mn); (0x1da85, First, So);
   (0x1da86, Last, So); (0x1da87, First, Po); (0x1da8b, Last, Po); (0x1da9b, First, Mn); (0x1da9f, Last, Mn); (0x1daa1, First, Mn);
   (0x1daaf, Last, Mn); (0x1e000, First, Mn); (0x1e006, Last, Mn); (0x1e008, First, Mn); (0x1e018, Last, Mn); (0x1e01b, First, Mn);
   (0x1e021, Last, Mn); (0x1e023, First, Mn); (0x1e024, Last, Mn); (0x1e026, First, Mn); (0x1e02a, Last, Mn); (0x1e100, First, Lo);
   (0x1e12c, Last, Lo); (0x1e130, First, Mn); (0x1e136, Last, Mn); (0x1e137, First, Lm); (0x1e13d, Last, Lm); (0x1e140, First, Nd);
   (0x1e149, Last, Nd); (0x1e14e, Single, Lo); (0x1e14f, Single, So); (0x1e2c0, First, Lo); (0x1e2eb, Last, Lo); (0x1e2ec, First, Mn);
   (0x1e2ef, Last, Mn); (0x1e2f0, First, Nd); (0x1e2f9, Last, Nd); (0x1e2ff, Single, Sc); (0x1e800, First, Lo); (0x1e8c4, Last, Lo);
   (0x1e8c7, First, No); (0x1e8cf, Last, No); (0x1e8d0, First, Mn); (0x1e8d6, Last, Mn); (0x1e900, First, Lu); (0x1e921, Last, Lu);
   (0x1e922, First, Ll); (0x1e943, Last, Ll); (0x1e944, First, Mn); (0x1e94a, Last, Mn); (0x1e94b, Single, Lm); (0x1e950, First, Nd);
   (0x1e959, Last, Nd); (0x1e95e, First, Po); (0x1e95f, Last, Po); (0x1ec71, First, No); (0x1ecab, Last, No); (0x1ecac, Single, So);
   (0x1ecad, First, No); (0x1ecaf, Last, No); (0x1ecb0, Single, Sc); (0x1ecb1, First, No); (0x1ecb4, Last, No); (0x1ed01, First, No);
   (0x1ed2d, Last, No); (0x1ed2e, Single, So); (0x1ed2f, First, No); (0x1ed3d, Last, No); (0x1ee00, First, Lo); (0x1ee03, Last, Lo);
   (0x1ee05, First, Lo); (0x1ee1f, Last, Lo); (0x1ee21, First, Lo); (0x1ee22, Last, Lo); (0x1ee24, Single, Lo); (0x1ee27, Single, Lo);
   (0x1ee29, First, Lo); (0x1ee32, Last, Lo); (0x1ee34, First, Lo); (0x1ee37, Last, Lo); (0x1ee39, Single, Lo); (0x1ee3b, Single, Lo);
   (0x1ee42, Single, Lo); (0x1ee47, Single, Lo); (0x1ee49, Single, Lo); (0x1ee4b, Single, Lo); (0x1ee4d, First, Lo); (0x1ee4f, Last, Lo);
   (0x1ee51, First, Lo); (0x1ee52, Last, Lo); (0x1ee54, Single, Lo); (0x1ee57, Single, Lo); (0x1ee59, Single, Lo); (0x1ee5b, Single, Lo);
   (0x1ee5d, Single, Lo); (0x1ee5f, Single, Lo); (0x1ee61, First, Lo); (0x1ee62, Last, Lo); (0x1ee64, Single, Lo); (0x1ee67, First, Lo);
   (0x1ee6a, Last, Lo); (0x1ee6c, First, Lo); (0x1ee72, Last, Lo); (0x1ee74, First, Lo); (0x1ee77, Last, Lo); (0x1ee79, First, Lo);
   (0x1ee7c, Last, Lo); (0x1ee7e, Single, Lo); (0x1ee80, First, Lo); (0x1ee89, Last, Lo); (0x1ee8b, First, Lo); (0x1ee9b, Last, Lo);
   (0x1eea1, First, Lo); (0x1eea3, Last, Lo); (0x1eea5, First, Lo); (0x1eea9, Last, Lo); (0x1eeab, First, Lo); (0x1eebb, Last, Lo);
   (0x1eef0, First, Sm); (0x1eef1, Last, Sm); (0x1f000, First, So); (0x1f02b, Last, So); (0x1f030, First, So); (0x1f093, Last, So);
   (0x1f0a0, First, So); (0x1f0ae, Last, So); (0x1f0b1, First, So); (0x1f0bf, Last, So); (0x1f0c1, First, So); (0x1f0cf, Last, So);
   (0x1f0d1, First, So); (0x1f0f5, Last, So); (0x1f100, First, No); (0x1f10c, Last, No); (0x1f10d, First, So); (0x1f1ad, Last, So);
   (0x1f1e6, First, So); (0x1f202, Last, So); (0x1f210, First, So); (0x1f23b, Last, So); (0x1f240, First, So); (0x1f248, Last, So);
   (0x1f250, First, So); (0x1f251, Last, So); (0x1f260, First, So); (0x1f265, Last, So); (0x1f300, First, So); (0x1f3fa, Last, So);
   (0x1f3fb, First, Sk); (0x1f3ff, Last, Sk); (0x1f400, First, So); (0x1f6d7, Last, So); (0x1f6e0, First, So); (0x1f6ec, Last, So);
   (0x1f6f0, First, So); (0x1f6fc, Last, So); (0x1f700, First, So); (0x1f773, Last, So); (0x1f780, First, So); (0x1f7d8, Last, So);
   (0x1f7e0, First, So); (0x1f7eb, Last, So); (0x1f800, First, So); (0x1f80b, Last, So); (0x1f810, First, So); (0x1f847, Last, So);
   (0x1f850, First, So); (0x1f859, Last, So); (0x1f860, First, So); (0x1f887, Last, So); (0x1f890, First, So); (0x1f8ad, Last, So);
   (0x1f8b0, First, So); (0x1f8b1, Last, So); (0x1f900, First, So); (0x1f978, Last, So); (0x1f97a, First, So); (0x1f9cb, Last, So);
   (0x1f9cd, First, So); (0x1fa53, Last, So); (0x1fa60, First, So); (0x1fa6d, Last, So); (0x1fa70, First, So); (0x1fa74, Last, So);
   (0x1fa78, First, So); (0x1fa7a, Last, So); (0x1fa80, First, So); (0x1fa86, Last, So); (0x1fa90, First, So); (0x1faa8, Last, So);
   (0x1fab0, First, So); (0x1fab6, Last, So); (0x1fac0, First, So); (0x1fac2, Last, So); (0x1fad0, First, So); (0x1fad6, Last, So);
   (0x1fb00, First, So); (0x1fb92, Last, So); (0x1fb94, First, So); (0x1fbca, Last, So); (0x1fbf0, First, Nd); (0x1fbf9, Last, Nd);
   (0x20000, First, Lo); (0x2a6dd, Last, Lo); (0x2a700, First, Lo); (0x2b734, Last, Lo); (0x2b740, First, Lo); (0x2b81d, Last, Lo);
   (0x2b820, First, Lo); (0x2cea1, Last, Lo); (0x2ceb0, First, Lo); (0x2ebe0, Last, Lo); (0x2f800, First, Lo); (0x2fa1d, Last, Lo);
   (0x30000, First, Lo); (0x3134a, Last, Lo); (0xe0001, Single, Cf); (0xe0020, First, Cf); (0xe007f, Last, Cf); (0xe0100, First, Mn);
   (0xe01ef, Last, Mn); (0xf0000, First, Co); (0xffffd, Last, Co); (0x100000, First, Co); (0x10fffd, Last, Co)].
