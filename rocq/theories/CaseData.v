(** Generated by tools/gen_unicode.py from the data files in unicode/. *)
From Verif Require Import Base CategoryModel CaseModel.

(** unicode/UnicodeData.txt: codepoint, category (field 2), upper case (field 12) and
    lower case (field 13), when one of the last two is not empty. *)
Definition case_data : list case_row :=
  [(0x41, Lu, None, Some 0x61); (0x42, Lu, None, Some 0x62); (0x43, Lu, None, Some 0x63);
   (0x44, Lu, None, Some 0x64); (0x45, Lu, None, Some 0x65); (0x46, Lu, None, Some 0x66);
   (0x47, Lu, None, Some 0x67); (0x48, Lu, None, Some 0x68); (0x49, Lu, None, Some 0x69);
   (0x4a, Lu, None, Some 0x6a); (0x4b, Lu, None, Some 0x6b); (0x4c, Lu, None, Some 0x6c);
   (0x4d, Lu, None, Some 0x6d); (0x4e, Lu, None, Some 0x6e); (0x4f, Lu, None, Some 0x6f);
   (0x50, Lu, None, Some 0x70); (0x51, Lu, None, Some 0x71); (0x52, Lu, None, Some 0x72);
   (0x53, Lu, None, Some 0x73); (0x54, Lu, None, Some 0x74); (0x55, Lu, None, Some 0x75);
   (0x56, Lu, None, Some 0x76); (0x57, Lu, None, Some 0x77); (0x58, Lu, None, Some 0x78);
   (0x59, Lu, None, Some 0x79); (0x5a, Lu, None, Some 0x7a); (0x61, Ll, Some 0x41, None);
   (0x62, Ll, Some 0x42, None); (0x63, Ll, Some 0x43, None); (0x64, Ll, Some 0x44, None);
   (0x65, Ll, Some 0x45, None); (0x66, Ll, Some 0x46, None); (0x67, Ll, Some 0x47, None);
   (0x68, Ll, Some 0x48, None); (0x69, Ll, Some 0x49, None); (0x6a, Ll, Some 0x4a, None);
   (0x6b, Ll, Some 0x4b, None); (0x6c, Ll, Some 0x4c, None); (0x6d, Ll, Some 0x4d, None);
   (0x6e, Ll, Some 0x4e, None); (0x6f, Ll, Some 0x4f, None); (0x70, Ll, Some 0x50, None);
   (0x71, Ll, Some 0x51, None); (0x72, Ll, Some 0x52, None); (0x73, Ll, Some 0x53, None);
   (0x74, Ll, Some 0x54, None); (0x75, Ll, Some 0x55, None); (0x76, Ll, Some 0x56, None);
   (0x77, Ll, Some 0x57, None); (0x78, Ll, Some 0x58, None); (0x79, Ll, Some 0x59, None);
   (0x7a, Ll, Some 0x5a, None); (0xb5, Ll, Some 0x39c, None); (0xc0, Lu, None, Some 0xe0);
   (0xc1, Lu, None, Some 0xe1); (0xc2, Lu, None, Some 0xe2); (0xc3, Lu, None, Some 0xe3);
   (0xc4, Lu, None, Some 0xe4); (0xc5, Lu, None, Some 0xe5); (0xc6, Lu, None, Some 0xe6);
   (0xc7, Lu, None, Some 0xe7); (0xc8, Lu, None, Some 0xe8); (0xc9, Lu, None, Some 0xe9);
   (0xca, Lu, None, Some 0xea); (0xcb, Lu, None, Some 0xeb); (0xcc, Lu, None, Some 0xec);
   (0xcd, Lu, None, Some 0xed); (0xce, Lu, None, Some 0xee); (0xcf, Lu, None, Some 0xef);
   (0xd0, Lu, None, Some 0xf0); (0xd1, Lu, None, Some 0xf1); (0xd2, Lu, None, Some 0xf2);
   (0xd3, Lu, None, Some 0xf3); (0xd4, Lu, None, Some 0xf4); (0xd5, Lu, None, Some 0xf5);
   (0xd6, Lu, None, Some 0xf6); (0xd8, Lu, None, Some 0xf8); (0xd9, Lu, None, Some 0xf9);
   (0xda, Lu, None, Some 0xfa); (0xdb, Lu, None, Some 0xfb); (0xdc, Lu, None, Some 0xfc);
   (0xdd, Lu, None, Some 0xfd); (0xde, Lu, None, Some 0xfe); (0xe0, Ll, Some 0xc0, None);
   (0xe1, Ll, Some 0xc1, None); (0xe2, Ll, Some 0xc2, None); (0xe3, Ll, Some 0xc3, None);
   (0xe4, Ll, Some 0xc4, None); (0xe5, Ll, Some 0xc5, None); (0xe6, Ll, Some 0xc6, None);
   (0xe7, Ll, Some 0xc7, None); (0xe8, Ll, Some 0xc8, None); (0xe9, Ll, Some 0xc9, None);
   (0xea, Ll, Some 0xca, None); (0xeb, Ll, Some 0xcb, None); (0xec, Ll, Some 0xcc, None);
   (0xed, Ll, Some 0xcd, None); (0xee, Ll, Some 0xce, None); (0xef, Ll, Some 0xcf, None);
   (0xf0, Ll, Some 0xd0, None); (0xf1, Ll, Some 0xd1, None); (0xf2, Ll, Some 0xd2, None);
   (0xf3, Ll, Some 0xd3, None); (0xf4, Ll, Some 0xd4, None); (0xf5, Ll, Some 0xd5, None);
   (0xf6, Ll, Some 0xd6, None); (0xf8, Ll, Some 0xd8, None); (0xf9, Ll, Some 0xd9, None);
   (0xfa, Ll, Some 0xda, None); (0xfb, Ll, Some 0xdb, None); (0xfc, Ll, Some 0xdc, None);
   (0xfd, Ll, Some 0xdd, None); (0xfe, Ll, Some 0xde, None); (0xff, Ll, Some 0x178, None);
   (0x100, Lu, None, Some 0x101); (0x101, Ll, Some 0x100, None); (0x102, Lu, None, Some 0x103);
   (0x103, Ll, Some 0x102, None); (0x104, Lu, None, Some 0x105); (0x105, Ll, Some 0x104, None);
   (0x106, Lu, None, Some 0x107); (0x107, Ll, Some 0x106, None); (0x108, Lu, None, Some 0x109);
   (0x109, Ll, Some 0x108, None); (0x10a, Lu, None, Some 0x10b); (0x10b, Ll, Some 0x10a, None);
   (0x10c, Lu, None, Some 0x10d); (0x10d, Ll, Some 0x10c, None); (0x10e, Lu, None, Some 0x10f);
   (0x10f, Ll, Some 0x10e, None); (0x110, Lu, None, Some 0x111); (0x111, Ll, Some 0x110, None);
   (0x112, Lu, None, Some 0x113); (0x113, Ll, Some 0x112, None); (0x114, Lu, None, Some 0x115);
   (0x115, Ll, Some 0x114, None); (0x116, Lu, None, Some 0x117); (0x117, Ll, Some 0x116, None);
   (0x118, Lu, None, Some 0x119); (0x119, Ll, Some 0x118, None); (0x11a, Lu, None, Some 0x11b);
   (0x11b, Ll, Some 0x11a, None); (0x11c, Lu, None, Some 0x11d); (0x11d, Ll, Some 0x11c, None);
   (0x11e, Lu, None, Some 0x11f); (0x11f, Ll, Some 0x11e, None); (0x120, Lu, None, Some 0x121);
   (0x121, Ll, Some 0x120, None); (0x122, Lu, None, Some 0x123); (0x123, Ll, Some 0x122, None);
   (0x124, Lu, None, Some 0x125); (0x125, Ll, Some 0x124, None); (0x126, Lu, None, Some 0x127);
   (0x127, Ll, Some 0x126, None); (0x128, Lu, None, Some 0x129); (0x129, Ll, Some 0x128, None);
   (0x12a, Lu, None, Some 0x12b); (0x12b, Ll, Some 0x12a, None); (0x12c, Lu, None, Some 0x12d);
   (0x12d, Ll, Some 0x12c, None); (0x12e, Lu, None, Some 0x12f); (0x12f, Ll, Some 0x12e, None);
   (0x130, Lu, None, Some 0x69); (0x131, Ll, Some 0x49, None); (0x132, Lu, None, Some 0x133);
   (0x133, Ll, Some 0x132, None); (0x134, Lu, None, Some 0x135); (0x135, Ll, Some 0x134, None);
   (0x136, Lu, None, Some 0x137); (0x137, Ll, Some 0x136, None); (0x139, Lu, None, Some 0x13a);
   (0x13a, Ll, Some 0x139, None); (0x13b, Lu, None, Some 0x13c); (0x13c, Ll, Some 0x13b, None);
   (0x13d, Lu, None, Some 0x13e); (0x13e, Ll, Some 0x13d, None); (0x13f, Lu, None, Some 0x140);
   (0x140, Ll, Some 0x13f, None); (0x141, Lu, None, Some 0x142); (0x142, Ll, Some 0x141, None);
   (0x143, Lu, None, Some 0x144); (0x144, Ll, Some 0x143, None); (0x145, Lu, None, Some 0x146);
   (0x146, Ll, Some 0x145, None); (0x147, Lu, None, Some 0x148); (0x148, Ll, Some 0x147, None);
   (0x14a, Lu, None, Some 0x14b); (0x14b, Ll, Some 0x14a, None); (0x14c, Lu, None, Some 0x14d);
   (0x14d, Ll, Some 0x14c, None); (0x14e, Lu, None, Some 0x14f); (0x14f, Ll, Some 0x14e, None);
   (0x150, Lu, None, Some 0x151); (0x151, Ll, Some 0x150, None); (0x152, Lu, None, Some 0x153);
   (0x153, Ll, Some 0x152, None); (0x154, Lu, None, Some 0x155); (0x155, Ll, Some 0x154, None);
   (0x156, Lu, None, Some 0x157); (0x157, Ll, Some 0x156, None); (0x158, Lu, None, Some 0x159);
   (0x159, Ll, Some 0x158, None); (0x15a, Lu, None, Some 0x15b); (0x15b, Ll, Some 0x15a, None);
   (0x15c, Lu, None, Some 0x15d); (0x15d, Ll, Some 0x15c, None); (0x15e, Lu, None, Some 0x15f);
   (0x15f, Ll, Some 0x15e, None); (0x160, Lu, None, Some 0x161); (0x161, Ll, Some 0x160, None);
   (0x162, Lu, None, Some 0x163); (0x163, Ll, Some 0x162, None); (0x164, Lu, None, Some 0x165);
   (0x165, Ll, Some 0x164, None); (0x166, Lu, None, Some 0x167); (0x167, Ll, Some 0x166, None);
   (0x168, Lu, None, Some 0x169); (0x169, Ll, Some 0x168, None); (0x16a, Lu, None, Some 0x16b);
   (0x16b, Ll, Some 0x16a, None); (0x16c, Lu, None, Some 0x16d); (0x16d, Ll, Some 0x16c, None);
   (0x16e, Lu, None, Some 0x16f); (0x16f, Ll, Some 0x16e, None); (0x170, Lu, None, Some 0x171);
   (0x171, Ll, Some 0x170, None); (0x172, Lu, None, Some 0x173); (0x173, Ll, Some 0x172, None);
   (0x174, Lu, None, Some 0x175); (0x175, Ll, Some 0x174, None); (0x176, Lu, None, Some 0x177);
   (0x177, Ll, Some 0x176, None); (0x178, Lu, None, Some 0xff); (0x179, Lu, None, Some 0x17a);
   (0x17a, Ll, Some 0x179, None); (0x17b, Lu, None, Some 0x17c); (0x17c, Ll, Some 0x17b, None);
   (0x17d, Lu, None, Some 0x17e); (0x17e, Ll, Some 0x17d, None); (0x17f, Ll, Some 0x53, None);
   (0x180, Ll, Some 0x243, None); (0x181, Lu, None, Some 0x253); (0x182, Lu, None, Some 0x183);
   (0x183, Ll, Some 0x182, None); (0x184, Lu, None, Some 0x185); (0x185, Ll, Some 0x184, None);
   (0x186, Lu, None, Some 0x254); (0x187, Lu, None, Some 0x188); (0x188, Ll, Some 0x187, None);
   (0x189, Lu, None, Some 0x256); (0x18a, Lu, None, Some 0x257); (0x18b, Lu, None, Some 0x18c);
   (0x18c, Ll, Some 0x18b, None); (0x18e, Lu, None, Some 0x1dd); (0x18f, Lu, None, Some 0x259);
   (0x190, Lu, None, Some 0x25b); (0x191, Lu, None, Some 0x192); (0x192, Ll, Some 0x191, None);
   (0x193, Lu, None, Some 0x260); (0x194, Lu, None, Some 0x263); (0x195, Ll, Some 0x1f6, None);
   (0x196, Lu, None, Some 0x269); (0x197, Lu, None, Some 0x268); (0x198, Lu, None, Some 0x199);
   (0x199, Ll, Some 0x198, None); (0x19a, Ll, Some 0x23d, None); (0x19c, Lu, None, Some 0x26f);
   (0x19d, Lu, None, Some 0x272); (0x19e, Ll, Some 0x220, None); (0x19f, Lu, None, Some 0x275);
   (0x1a0, Lu, None, Some 0x1a1); (0x1a1, Ll, Some 0x1a0, None); (0x1a2, Lu, None, Some 0x1a3);
   (0x1a3, Ll, Some 0x1a2, None); (0x1a4, Lu, None, Some 0x1a5); (0x1a5, Ll, Some 0x1a4, None);
   (0x1a6, Lu, None, Some 0x280); (0x1a7, Lu, None, Some 0x1a8); (0x1a8, Ll, Some 0x1a7, None);
   (0x1a9, Lu, None, Some 0x283); (0x1ac, Lu, None, Some 0x1ad); (0x1ad, Ll, Some 0x1ac, None);
   (0x1ae, Lu, None, Some 0x288); (0x1af, Lu, None, Some 0x1b0); (0x1b0, Ll, Some 0x1af, None);
   (0x1b1, Lu, None, Some 0x28a); (0x1b2, Lu, None, Some 0x28b); (0x1b3, Lu, None, Some 0x1b4);
   (0x1b4, Ll, Some 0x1b3, None); (0x1b5, Lu, None, Some 0x1b6); (0x1b6, Ll, Some 0x1b5, None);
   (0x1b7, Lu, None, Some 0x292); (0x1b8, Lu, None, Some 0x1b9); (0x1b9, Ll, Some 0x1b8, None);
   (0x1bc, Lu, None, Some 0x1bd); (0x1bd, Ll, Some 0x1bc, None); (0x1bf, Ll, Some 0x1f7, None);
   (0x1c4, Lu, None, Some 0x1c6); (0x1c5, Lt, Some 0x1c4, Some 0x1c6); (0x1c6, Ll, Some 0x1c4, None);
   (0x1c7, Lu, None, Some 0x1c9); (0x1c8, Lt, Some 0x1c7, Some 0x1c9); (0x1c9, Ll, Some 0x1c7, None);
   (0x1ca, Lu, None, Some 0x1cc); (0x1cb, Lt, Some 0x1ca, Some 0x1cc); (0x1cc, Ll, Some 0x1ca, None);
   (0x1cd, Lu, None, Some 0x1ce); (0x1ce, Ll, Some 0x1cd, None); (0x1cf, Lu, None, Some 0x1d0);
   (0x1d0, Ll, Some 0x1cf, None); (0x1d1, Lu, None, Some 0x1d2); (0x1d2, Ll, Some 0x1d1, None);
   (0x1d3, Lu, None, Some 0x1d4); (0x1d4, Ll, Some 0x1d3, None); (0x1d5, Lu, None, Some 0x1d6);
   (0x1d6, Ll, Some 0x1d5, None); (0x1d7, Lu, None, Some 0x1d8); (0x1d8, Ll, Some 0x1d7, None);
   (0x1d9, Lu, None, Some 0x1da); (0x1da, Ll, Some 0x1d9, None); (0x1db, Lu, None, Some 0x1dc);
   (0x1dc, Ll, Some 0x1db, None); (0x1dd, Ll, Some 0x18e, None); (0x1de, Lu, None, Some 0x1df);
   (0x1df, Ll, Some 0x1de, None); (0x1e0, Lu, None, Some 0x1e1); (0x1e1, Ll, Some 0x1e0, None);
   (0x1e2, Lu, None, Some 0x1e3); (0x1e3, Ll, Some 0x1e2, None); (0x1e4, Lu, None, Some 0x1e5);
   (0x1e5, Ll, Some 0x1e4, None); (0x1e6, Lu, None, Some 0x1e7); (0x1e7, Ll, Some 0x1e6, None);
   (0x1e8, Lu, None, Some 0x1e9); (0x1e9, Ll, Some 0x1e8, None); (0x1ea, Lu, None, Some 0x1eb);
   (0x1eb, Ll, Some 0x1ea, None); (0x1ec, Lu, None, Some 0x1ed); (0x1ed, Ll, Some 0x1ec, None);
   (0x1ee, Lu, None, Some 0x1ef); (0x1ef, Ll, Some 0x1ee, None); (0x1f1, Lu, None, Some 0x1f3);
   (0x1f2, Lt, Some 0x1f1, Some 0x1f3); (0x1f3, Ll, Some 0x1f1, None); (0x1f4, Lu, None, Some 0x1f5);
   (0x1f5, Ll, Some 0x1f4, None); (0x1f6, Lu, None, Some 0x195); (0x1f7, Lu, None, Some 0x1bf);
   (0x1f8, Lu, None, Some 0x1f9); (0x1f9, Ll, Some 0x1f8, None); (0x1fa, Lu, None, Some 0x1fb);
   (0x1fb, Ll, Some 0x1fa, None); (0x1fc, Lu, None, Some 0x1fd); (0x1fd, Ll, Some 0x1fc, None);
   (0x1fe, Lu, None, Some 0x1ff); (0x1ff, Ll, Some 0x1fe, None); (0x200, Lu, None, Some 0x201);
   (0x201, Ll, Some 0x200, None); (0x202, Lu, None, Some 0x203); (0x203, Ll, Some 0x202, None);
   (0x204, Lu, None, Some 0x205); (0x205, Ll, Some 0x204, None); (0x206, Lu, None, Some 0x207);
   (0x207, Ll, Some 0x206, None); (0x208, Lu, None, Some 0x209); (0x209, Ll, Some 0x208, None);
   (0x20a, Lu, None, Some 0x20b); (0x20b, Ll, Some 0x20a, None); (0x20c, Lu, None, Some 0x20d);
   (0x20d, Ll, Some 0x20c, None); (0x20e, Lu, None, Some 0x20f); (0x20f, Ll, Some 0x20e, None);
   (0x210, Lu, None, Some 0x211); (0x211, Ll, Some 0x210, None); (0x212, Lu, None, Some 0x213);
   (0x213, Ll, Some 0x212, None); (0x214, Lu, None, Some 0x215); (0x215, Ll, Some 0x214, None);
   (0x216, Lu, None, Some 0x217); (0x217, Ll, Some 0x216, None); (0x218, Lu, None, Some 0x219);
   (0x219, Ll, Some 0x218, None); (0x21a, Lu, None, Some 0x21b); (0x21b, Ll, Some 0x21a, None);
   (0x21c, Lu, None, Some 0x21d); (0x21d, Ll, Some 0x21c, None); (0x21e, Lu, None, Some 0x21f);
   (0x21f, Ll, Some 0x21e, None); (0x220, Lu, None, Some 0x19e); (0x222, Lu, None, Some 0x223);
   (0x223, Ll, Some 0x222, None); (0x224, Lu, None, Some 0x225); (0x225, Ll, Some 0x224, None);
   (0x226, Lu, None, Some 0x227); (0x227, Ll, Some 0x226, None); (0x228, Lu, None, Some 0x229);
   (0x229, Ll, Some 0x228, None); (0x22a, Lu, None, Some 0x22b); (0x22b, Ll, Some 0x22a, None);
   (0x22c, Lu, None, Some 0x22d); (0x22d, Ll, Some 0x22c, None); (0x22e, Lu, None, Some 0x22f);
   (0x22f, Ll, Some 0x22e, None); (0x230, Lu, None, Some 0x231); (0x231, Ll, Some 0x230, None);
   (0x232, Lu, None, Some 0x233); (0x233, Ll, Some 0x232, None); (0x23a, Lu, None, Some 0x2c65);
   (0x23b, Lu, None, Some 0x23c); (0x23c, Ll, Some 0x23b, None); (0x23d, Lu, None, Some 0x19a);
   (0x23e, Lu, None, Some 0x2c66); (0x23f, Ll, Some 0x2c7e, None); (0x240, Ll, Some 0x2c7f, None);
   (0x241, Lu, None, Some 0x242); (0x242, Ll, Some 0x241, None); (0x243, Lu, None, Some 0x180);
   (0x244, Lu, None, Some 0x289); (0x245, Lu, None, Some 0x28c); (0x246, Lu, None, Some 0x247);
   (0x247, Ll, Some 0x246, None); (0x248, Lu, None, Some 0x249); (0x249, Ll, Some 0x248, None);
   (0x24a, Lu, None, Some 0x24b); (0x24b, Ll, Some 0x24a, None); (0x24c, Lu, None, Some 0x24d);
   (0x24d, Ll, Some 0x24c, None); (0x24e, Lu, None, Some 0x24f); (0x24f, Ll, Some 0x24e, None);
   (0x250, Ll, Some 0x2c6f, None); (0x251, Ll, Some 0x2c6d, None); (0x252, Ll, Some 0x2c70, None);
   (0x253, Ll, Some 0x181, None); (0x254, Ll, Some 0x186, None); (0x256, Ll, Some 0x189, None);
   (0x257, Ll, Some 0x18a, None); (0x259, Ll, Some 0x18f, None); (0x25b, Ll, Some 0x190, None);
   (0x25c, Ll, Some 0xa7ab, None); (0x260, Ll, Some 0x193, None); (0x261, Ll, Some 0xa7ac, None);
   (0x263, Ll, Some 0x194, None); (0x265, Ll, Some 0xa78d, None); (0x266, Ll, Some 0xa7aa, None);
   (0x268, Ll, Some 0x197, None); (0x269, Ll, Some 0x196, None); (0x26a, Ll, Some 0xa7ae, None);
   (0x26b, Ll, Some 0x2c62, None); (0x26c, Ll, Some 0xa7ad, None); (0x26f, Ll, Some 0x19c, None);
   (0x271, Ll, Some 0x2c6e, None); (0x272, Ll, Some 0x19d, None); (0x275, Ll, Some 0x19f, None);
   (0x27d, Ll, Some 0x2c64, None); (0x280, Ll, Some 0x1a6, None); (0x282, Ll, Some 0xa7c5, None);
   (0x283, Ll, Some 0x1a9, None); (0x287, Ll, Some 0xa7b1, None); (0x288, Ll, Some 0x1ae, None);
   (0x289, Ll, Some 0x244, None); (0x28a, Ll, Some 0x1b1, None); (0x28b, Ll, Some 0x1b2, None);
   (0x28c, Ll, Some 0x245, None); (0x292, Ll, Some 0x1b7, None); (0x29d, Ll, Some 0xa7b2, None);
   (0x29e, Ll, Some 0xa7b0, None); (0x345, Mn, Some 0x399, None); (0x370, Lu, None, Some 0x371);
   (0x371, Ll, Some 0x370, None); (0x372, Lu, None, Some 0x373); (0x373, Ll, Some 0x372, None);
   (0x376, Lu, None, Some 0x377); (0x377, Ll, Some 0x376, None); (0x37b, Ll, Some 0x3fd, None);
   (0x37c, Ll, Some 0x3fe, None); (0x37d, Ll, Some 0x3ff, None); (0x37f, Lu, None, Some 0x3f3);
   (0x386, Lu, None, Some 0x3ac); (0x388, Lu, None, Some 0x3ad); (0x389, Lu, None, Some 0x3ae);
   (0x38a, Lu, None, Some 0x3af); (0x38c, Lu, None, Some 0x3cc); (0x38e, Lu, None, Some 0x3cd);
   (0x38f, Lu, None, Some 0x3ce); (0x391, Lu, None, Some 0x3b1); (0x392, Lu, None, Some 0x3b2);
   (0x393, Lu, None, Some 0x3b3); (0x394, Lu, None, Some 0x3b4); (0x395, Lu, None, Some 0x3b5);
   (0x396, Lu, None, Some 0x3b6); (0x397, Lu, None, Some 0x3b7); (0x398, Lu, None, Some 0x3b8);
   (0x399, Lu, None, Some 0x3b9); (0x39a, Lu, None, Some 0x3ba); (0x39b, Lu, None, Some 0x3bb);
   (0x39c, Lu, None, Some 0x3bc); (0x39d, Lu, None, Some 0x3bd); (0x39e, Lu, None, Some 0x3be);
   (0x39f, Lu, None, Some 0x3bf); (0x3a0, Lu, None, Some 0x3c0); (0x3a1, Lu, None, Some 0x3c1);
   (0x3a3, Lu, None, Some 0x3c3); (0x3a4, Lu, None, Some 0x3c4); (0x3a5, Lu, None, Some 0x3c5);
   (0x3a6, Lu, None, Some 0x3c6); (0x3a7, Lu, None, Some 0x3c7); (0x3a8, Lu, None, Some 0x3c8);
   (0x3a9, Lu, None, Some 0x3c9); (0x3aa, Lu, None, Some 0x3ca); (0x3ab, Lu, None, Some 0x3cb);
   (0x3ac, Ll, Some 0x386, None); (0x3ad, Ll, Some 0x388, None); (0x3ae, Ll, Some 0x389, None);
   (0x3af, Ll, Some 0x38a, None); (0x3b1, Ll, Some 0x391, None); (0x3b2, Ll, Some 0x392, None);
   (0x3b3, Ll, Some 0x393, None); (0x3b4, Ll, Some 0x394, None); (0x3b5, Ll, Some 0x395, None);
   (0x3b6, Ll, Some 0x396, None); (0x3b7, Ll, Some 0x397, None); (0x3b8, Ll, Some 0x398, None);
   (0x3b9, Ll, Some 0x399, None); (0x3ba, Ll, Some 0x39a, None); (0x3bb, Ll, Some 0x39b, None);
   (0x3bc, Ll, Some 0x39c, None); (0x3bd, Ll, Some 0x39d, None); (0x3be, Ll, Some 0x39e, None);
   (0x3bf, Ll, Some 0x39f, None); (0x3c0, Ll, Some 0x3a0, None); (0x3c1, Ll, Some 0x3a1, None);
   (0x3c2, Ll, Some 0x3a3, None); (0x3c3, Ll, Some 0x3a3, None); (0x3c4, Ll, Some 0x3a4, None);
   (0x3c5, Ll, Some 0x3a5, None); (0x3c6, Ll, Some 0x3a6, None); (0x3c7, Ll, Some 0x3a7, None);
   (0x3c8, Ll, Some 0x3a8, None); (0x3c9, Ll, Some 0x3a9, None); (0x3ca, Ll, Some 0x3aa, None);
   (0x3cb, Ll, Some 0x3ab, None); (0x3cc, Ll, Some 0x38c, None); (0x3cd, Ll, Some 0x38e, None);
   (0x3ce, Ll, Some 0x38f, None); (0x3cf, Lu, None, Some 0x3d7); (0x3d0, Ll, Some 0x392, None);
   (0x3d1, Ll, Some 0x398, None); (0x3d5, Ll, Some 0x3a6, None); (0x3d6, Ll, Some 0x3a0, None);
   (0x3d7, Ll, Some 0x3cf, None); (0x3d8, Lu, None, Some 0x3d9); (0x3d9, Ll, Some 0x3d8, None);
   (0x3da, Lu, None, Some 0x3db); (0x3db, Ll, Some 0x3da, None); (0x3dc, Lu, None, Some 0x3dd);
   (0x3dd, Ll, Some 0x3dc, None); (0x3de, Lu, None, Some 0x3df); (0x3df, Ll, Some 0x3de, None);
   (0x3e0, Lu, None, Some 0x3e1); (0x3e1, Ll, Some 0x3e0, None); (0x3e2, Lu, None, Some 0x3e3);
   (0x3e3, Ll, Some 0x3e2, None); (0x3e4, Lu, None, Some 0x3e5); (0x3e5, Ll, Some 0x3e4, None);
   (0x3e6, Lu, None, Some 0x3e7); (0x3e7, Ll, Some 0x3e6, None); (0x3e8, Lu, None, Some 0x3e9);
   (0x3e9, Ll, Some 0x3e8, None); (0x3ea, Lu, None, Some 0x3eb); (0x3eb, Ll, Some 0x3ea, None);
   (0x3ec, Lu, None, Some 0x3ed); (0x3ed, Ll, Some 0x3ec, None); (0x3ee, Lu, None, Some 0x3ef);
   (0x3ef, Ll, Some 0x3ee, None); (0x3f0, Ll, Some 0x39a, None); (0x3f1, Ll, Some 0x3a1, None);
   (0x3f2, Ll, Some 0x3f9, None); (0x3f3, Ll, Some 0x37f, None); (0x3f4, Lu, None, Some 0x3b8);
   (0x3f5, Ll, Some 0x395, None); (0x3f7, Lu, None, Some 0x3f8); (0x3f8, Ll, Some 0x3f7, None);
   (0x3f9, Lu, None, Some 0x3f2); (0x3fa, Lu, None, Some 0x3fb); (0x3fb, Ll, Some 0x3fa, None);
   (0x3fd, Lu, None, Some 0x37b); (0x3fe, Lu, None, Some 0x37c); (0x3ff, Lu, None, Some 0x37d);
   (0x400, Lu, None, Some 0x450); (0x401, Lu, None, Some 0x451); (0x402, Lu, None, Some 0x452);
   (0x403, Lu, None, Some 0x453); (0x404, Lu, None, Some 0x454); (0x405, Lu, None, Some 0x455);
   (0x406, Lu, None, Some 0x456); (0x407, Lu, None, Some 0x457); (0x408, Lu, None, Some 0x458);
   (0x409, Lu, None, Some 0x459); (0x40a, Lu, None, Some 0x45a); (0x40b, Lu, None, Some 0x45b);
   (0x40c, Lu, None, Some 0x45c); (0x40d, Lu, None, Some 0x45d); (0x40e, Lu, None, Some 0x45e);
   (0x40f, Lu, None, Some 0x45f); (0x410, Lu, None, Some 0x430); (0x411, Lu, None, Some 0x431);
   (0x412, Lu, None, Some 0x432); (0x413, Lu, None, Some 0x433); (0x414, Lu, None, Some 0x434);
   (0x415, Lu, None, Some 0x435); (0x416, Lu, None, Some 0x436); (0x417, Lu, None, Some 0x437);
   (0x418, Lu, None, Some 0x438); (0x419, Lu, None, Some 0x439); (0x41a, Lu, None, Some 0x43a);
   (0x41b, Lu, None, Some 0x43b); (0x41c, Lu, None, Some 0x43c); (0x41d, Lu, None, Some 0x43d);
   (0x41e, Lu, None, Some 0x43e); (0x41f, Lu, None, Some 0x43f); (0x420, Lu, None, Some 0x440);
   (0x421, Lu, None, Some 0x441); (0x422, Lu, None, Some 0x442); (0x423, Lu, None, Some 0x443);
   (0x424, Lu, None, Some 0x444); (0x425, Lu, None, Some 0x445); (0x426, Lu, None, Some 0x446);
   (0x427, Lu, None, Some 0x447); (0x428, Lu, None, Some 0x448); (0x429, Lu, None, Some 0x449);
   (0x42a, Lu, None, Some 0x44a); (0x42b, Lu, None, Some 0x44b); (0x42c, Lu, None, Some 0x44c);
   (0x42d, Lu, None, Some 0x44d); (0x42e, Lu, None, Some 0x44e); (0x42f, Lu, None, Some 0x44f);
   (0x430, Ll, Some 0x410, None); (0x431, Ll, Some 0x411, None); (0x432, Ll, Some 0x412, None);
   (0x433, Ll, Some 0x413, None); (0x434, Ll, Some 0x414, None); (0x435, Ll, Some 0x415, None);
   (0x436, Ll, Some 0x416, None); (0x437, Ll, Some 0x417, None); (0x438, Ll, Some 0x418, None);
   (0x439, Ll, Some 0x419, None); (0x43a, Ll, Some 0x41a, None); (0x43b, Ll, Some 0x41b, None);
   (0x43c, Ll, Some 0x41c, None); (0x43d, Ll, Some 0x41d, None); (0x43e, Ll, Some 0x41e, None);
   (0x43f, Ll, Some 0x41f, None); (0x440, Ll, Some 0x420, None); (0x441, Ll, Some 0x421, None);
   (0x442, Ll, Some 0x422, None); (0x443, Ll, Some 0x423, None); (0x444, Ll, Some 0x424, None);
   (0x445, Ll, Some 0x425, None); (0x446, Ll, Some 0x426, None); (0x447, Ll, Some 0x427, None);
   (0x448, Ll, Some 0x428, None); (0x449, Ll, Some 0x429, None); (0x44a, Ll, Some 0x42a, None);
   (0x44b, Ll, Some 0x42b, None); (0x44c, Ll, Some 0x42c, None); (0x44d, Ll, Some 0x42d, None);
   (0x44e, Ll, Some 0x42e, None); (0x44f, Ll, Some 0x42f, None); (0x450, Ll, Some 0x400, None);
   (0x451, Ll, Some 0x401, None); (0x452, Ll, Some 0x402, None); (0x453, Ll, Some 0x403, None);
   (0x454, Ll, Some 0x404, None); (0x455, Ll, Some 0x405, None); (0x456, Ll, Some 0x406, None);
   (0x457, Ll, Some 0x407, None); (0x458, Ll, Some 0x408, None); (0x459, Ll, Some 0x409, None);
   (0x45a, Ll, Some 0x40a, None); (0x45b, Ll, Some 0x40b, None); (0x45c, Ll, Some 0x40c, None);
   (0x45d, Ll, Some 0x40d, None); (0x45e, Ll, Some 0x40e, None); (0x45f, Ll, Some 0x40f, None);
   (0x460, Lu, None, Some 0x461); (0x461, Ll, Some 0x460, None); (0x462, Lu, None, Some 0x463);
   (0x463, Ll, Some 0x462, None); (0x464, Lu, None, Some 0x465); (0x465, Ll, Some 0x464, None);
   (0x466, Lu, None, Some 0x467); (0x467, Ll, Some 0x466, None); (0x468, Lu, None, Some 0x469);
   (0x469, Ll, Some 0x468, None); (0x46a, Lu, None, Some 0x46b); (0x46b, Ll, Some 0x46a, None);
   (0x46c, Lu, None, Some 0x46d); (0x46d, Ll, Some 0x46c, None); (0x46e, Lu, None, Some 0x46f);
   (0x46f, Ll, Some 0x46e, None); (0x470, Lu, None, Some 0x471); (0x471, Ll, Some 0x470, None);
   (0x472, Lu, None, Some 0x473); (0x473, Ll, Some 0x472, None); (0x474, Lu, None, Some 0x475);
   (0x475, Ll, Some 0x474, None); (0x476, Lu, None, Some 0x477); (0x477, Ll, Some 0x476, None);
   (0x478, Lu, None, Some 0x479); (0x479, Ll, Some 0x478, None); (0x47a, Lu, None, Some 0x47b);
   (0x47b, Ll, Some 0x47a, None); (0x47c, Lu, None, Some 0x47d); (0x47d, Ll, Some 0x47c, None);
   (0x47e, Lu, None, Some 0x47f); (0x47f, Ll, Some 0x47e, None); (0x480, Lu, None, Some 0x481);
   (0x481, Ll, Some 0x480, None); (0x48a, Lu, None, Some 0x48b); (0x48b, Ll, Some 0x48a, None);
   (0x48c, Lu, None, Some 0x48d); (0x48d, Ll, Some 0x48c, None); (0x48e, Lu, None, Some 0x48f);
   (0x48f, Ll, Some 0x48e, None); (0x490, Lu, None, Some 0x491); (0x491, Ll, Some 0x490, None);
   (0x492, Lu, None, Some 0x493); (0x493, Ll, Some 0x492, None); (0x494, Lu, None, Some 0x495);
   (0x495, Ll, Some 0x494, None); (0x496, Lu, None, Some 0x497); (0x497, Ll, Some 0x496, None);
   (0x498, Lu, None, Some 0x499); (0x499, Ll, Some 0x498, None); (0x49a, Lu, None, Some 0x49b);
   (0x49b, Ll, Some 0x49a, None); (0x49c, Lu, None, Some 0x49d); (0x49d, Ll, Some 0x49c, None);
   (0x49e, Lu, None, Some 0x49f); (0x49f, Ll, Some 0x49e, None); (0x4a0, Lu, None, Some 0x4a1);
   (0x4a1, Ll, Some 0x4a0, None); (0x4a2, Lu, None, Some 0x4a3); (0x4a3, Ll, Some 0x4a2, None);
   (0x4a4, Lu, None, Some 0x4a5); (0x4a5, Ll, Some 0x4a4, None); (0x4a6, Lu, None, Some 0x4a7);
   (0x4a7, Ll, Some 0x4a6, None); (0x4a8, Lu, None, Some 0x4a9); (0x4a9, Ll, Some 0x4a8, None);
   (0x4aa, Lu, None, Some 0x4ab); (0x4ab, Ll, Some 0x4aa, None); (0x4ac, Lu, None, Some 0x4ad);
   (0x4ad, Ll, Some 0x4ac, None); (0x4ae, Lu, None, Some 0x4af); (0x4af, Ll, Some 0x4ae, None);
   (0x4b0, Lu, None, Some 0x4b1); (0x4b1, Ll, Some 0x4b0, None); (0x4b2, Lu, None, Some 0x4b3);
   (0x4b3, Ll, Some 0x4b2, None); (0x4b4, Lu, None, Some 0x4b5); (0x4b5, Ll, Some 0x4b4, None);
   (0x4b6, Lu, None, Some 0x4b7); (0x4b7, Ll, Some 0x4b6, None); (0x4b8, Lu, None, Some 0x4b9);
   (0x4b9, Ll, Some 0x4b8, None); (0x4ba, Lu, None, Some 0x4bb); (0x4bb, Ll, Some 0x4ba, None);
   (0x4bc, Lu, None, Some 0x4bd); (0x4bd, Ll, Some 0x4bc, None); (0x4be, Lu, None, Some 0x4bf);
   (0x4bf, Ll, Some 0x4be, None); (0x4c0, Lu, None, Some 0x4cf); (0x4c1, Lu, None, Some 0x4c2);
   (0x4c2, Ll, Some 0x4c1, None); (0x4c3, Lu, None, Some 0x4c4); (0x4c4, Ll, Some 0x4c3, None);
   (0x4c5, Lu, None, Some 0x4c6); (0x4c6, Ll, Some 0x4c5, None); (0x4c7, Lu, None, Some 0x4c8);
   (0x4c8, Ll, Some 0x4c7, None); (0x4c9, Lu, None, Some 0x4ca); (0x4ca, Ll, Some 0x4c9, None);
   (0x4cb, Lu, None, Some 0x4cc); (0x4cc, Ll, Some 0x4cb, None); (0x4cd, Lu, None, Some 0x4ce);
   (0x4ce, Ll, Some 0x4cd, None); (0x4cf, Ll, Some 0x4c0, None); (0x4d0, Lu, None, Some 0x4d1);
   (0x4d1, Ll, Some 0x4d0, None); (0x4d2, Lu, None, Some 0x4d3); (0x4d3, Ll, Some 0x4d2, None);
   (0x4d4, Lu, None, Some 0x4d5); (0x4d5, Ll, Some 0x4d4, None); (0x4d6, Lu, None, Some 0x4d7);
   (0x4d7, Ll, Some 0x4d6, None); (0x4d8, Lu, None, Some 0x4d9); (0x4d9, Ll, Some 0x4d8, None);
   (0x4da, Lu, None, Some 0x4db); (0x4db, Ll, Some 0x4da, None); (0x4dc, Lu, None, Some 0x4dd);
   (0x4dd, Ll, Some 0x4dc, None); (0x4de, Lu, None, Some 0x4df); (0x4df, Ll, Some 0x4de, None);
   (0x4e0, Lu, None, Some 0x4e1); (0x4e1, Ll, Some 0x4e0, None); (0x4e2, Lu, None, Some 0x4e3);
   (0x4e3, Ll, Some 0x4e2, None); (0x4e4, Lu, None, Some 0x4e5); (0x4e5, Ll, Some 0x4e4, None);
   (0x4e6, Lu, None, Some 0x4e7); (0x4e7, Ll, Some 0x4e6, None); (0x4e8, Lu, None, Some 0x4e9);
   (0x4e9, Ll, Some 0x4e8, None); (0x4ea, Lu, None, Some 0x4eb); (0x4eb, Ll, Some 0x4ea, None);
   (0x4ec, Lu, None, Some 0x4ed); (0x4ed, Ll, Some 0x4ec, None); (0x4ee, Lu, None, Some 0x4ef);
   (0x4ef, Ll, Some 0x4ee, None); (0x4f0, Lu, None, Some 0x4f1); (0x4f1, Ll, Some 0x4f0, None);
   (0x4f2, Lu, None, Some 0x4f3); (0x4f3, Ll, Some 0x4f2, None); (0x4f4, Lu, None, Some 0x4f5);
   (0x4f5, Ll, Some 0x4f4, None); (0x4f6, Lu, None, Some 0x4f7); (0x4f7, Ll, Some 0x4f6, None);
   (0x4f8, Lu, None, Some 0x4f9); (0x4f9, Ll, Some 0x4f8, None); (0x4fa, Lu, None, Some 0x4fb);
   (0x4fb, Ll, Some 0x4fa, None); (0x4fc, Lu, None, Some 0x4fd); (0x4fd, Ll, Some 0x4fc, None);
   (0x4fe, Lu, None, Some 0x4ff); (0x4ff, Ll, Some 0x4fe, None); (0x500, Lu, None, Some 0x501);
   (0x501, Ll, Some 0x500, None); (0x502, Lu, None, Some 0x503); (0x503, Ll, Some 0x502, None);
   (0x504, Lu, None, Some 0x505); (0x505, Ll, Some 0x504, None); (0x506, Lu, None, Some 0x507);
   (0x507, Ll, Some 0x506, None); (0x508, Lu, None, Some 0x509); (0x509, Ll, Some 0x508, None);
   (0x50a, Lu, None, Some 0x50b); (0x50b, Ll, Some 0x50a, None); (0x50c, Lu, None, Some 0x50d);
   (0x50d, Ll, Some 0x50c, None); (0x50e, Lu, None, Some 0x50f); (0x50f, Ll, Some 0x50e, None);
   (0x510, Lu, None, Some 0x511); (0x511, Ll, Some 0x510, None); (0x512, Lu, None, Some 0x513);
   (0x513, Ll, Some 0x512, None); (0x514, Lu, None, Some 0x515); (0x515, Ll, Some 0x514, None);
   (0x516, Lu, None, Some 0x517); (0x517, Ll, Some 0x516, None); (0x518, Lu, None, Some 0x519);
   (0x519, Ll, Some 0x518, None); (0x51a, Lu, None, Some 0x51b); (0x51b, Ll, Some 0x51a, None);
   (0x51c, Lu, None, Some 0x51d); (0x51d, Ll, Some 0x51c, None); (0x51e, Lu, None, Some 0x51f);
   (0x51f, Ll, Some 0x51e, None); (0x520, Lu, None, Some 0x521); (0x521, Ll, Some 0x520, None);
   (0x522, Lu, None, Some 0x523); (0x523, Ll, Some 0x522, None); (0x524, Lu, None, Some 0x525);
   (0x525, Ll, Some 0x524, None); (0x526, Lu, None, Some 0x527); (0x527, Ll, Some 0x526, None);
   (0x528, Lu, None, Some 0x529); (0x529, Ll, Some 0x528, None); (0x52a, Lu, None, Some 0x52b);
   (0x52b, Ll, Some 0x52a, None); (0x52c, Lu, None, Some 0x52d); (0x52d, Ll, Some 0x52c, None);
   (0x52e, Lu, None, Some 0x52f); (0x52f, Ll, Some 0x52e, None); (0x531, Lu, None, Some 0x561);
   (0x532, Lu, None, Some 0x562); (0x533, Lu, None, Some 0x563); (0x534, Lu, None, Some 0x564);
   (0x535, Lu, None, Some 0x565); (0x536, Lu, None, Some 0x566); (0x537, Lu, None, Some 0x567);
   (0x538, Lu, None, Some 0x568); (0x539, Lu, None, Some 0x569); (0x53a, Lu, None, Some 0x56a);
   (0x53b, Lu, None, Some 0x56b); (0x53c, Lu, None, Some 0x56c); (0x53d, Lu, None, Some 0x56d);
   (0x53e, Lu, None, Some 0x56e); (0x53f, Lu, None, Some 0x56f); (0x540, Lu, None, Some 0x570);
   (0x541, Lu, None, Some 0x571); (0x542, Lu, None, Some 0x572); (0x543, Lu, None, Some 0x573);
   (0x544, Lu, None, Some 0x574); (0x545, Lu, None, Some 0x575); (0x546, Lu, None, Some 0x576);
   (0x547, Lu, None, Some 0x577); (0x548, Lu, None, Some 0x578); (0x549, Lu, None, Some 0x579);
   (0x54a, Lu, None, Some 0x57a); (0x54b, Lu, None, Some 0x57b); (0x54c, Lu, None, Some 0x57c);
   (0x54d, Lu, None, Some 0x57d); (0x54e, Lu, None, Some 0x57e); (0x54f, Lu, None, Some 0x57f);
   (0x550, Lu, None, Some 0x580); (0x551, Lu, None, Some 0x581); (0x552, Lu, None, Some 0x582);
   (0x553, Lu, None, Some 0x583); (0x554, Lu, None, Some 0x584); (0x555, Lu, None, Some 0x585);
   (0x556, Lu, None, Some 0x586); (0x561, Ll, Some 0x531, None); (0x562, Ll, Some 0x532, None);
   (0x563, Ll, Some 0x533, None); (0x564, Ll, Some 0x534, None); (0x565, Ll, Some 0x535, None);
   (0x566, Ll, Some 0x536, None); (0x567, Ll, Some 0x537, None); (0x568, Ll, Some 0x538, None);
   (0x569, Ll, Some 0x539, None); (0x56a, Ll, Some 0x53a, None); (0x56b, Ll, Some 0x53b, None);
   (0x56c, Ll, Some 0x53c, None); (0x56d, Ll, Some 0x53d, None); (0x56e, Ll, Some 0x53e, None);
   (0x56f, Ll, Some 0x53f, None); (0x570, Ll, Some 0x540, None); (0x571, Ll, Some 0x541, None);
   (0x572, Ll, Some 0x542, None); (0x573, Ll, Some 0x543, None); (0x574, Ll, Some 0x544, None);
   (0x575, Ll, Some 0x545, None); (0x576, Ll, Some 0x546, None); (0x577, Ll, Some 0x547, None);
   (0x578, Ll, Some 0x548, None); (0x579, Ll, Some 0x549, None); (0x57a, Ll, Some 0x54a, None);
   (0x57b, Ll, Some 0x54b, None); (0x57c, Ll, Some 0x54c, None); (0x57d, Ll, Some 0x54d, None);
   (0x57e, Ll, Some 0x54e, None); (0x57f, Ll, Some 0x54f, None); (0x580, Ll, Some 0x550, None);
   (0x581, Ll, Some 0x551, None); (0x582, Ll, Some 0x552, None); (0x583, Ll, Some 0x553, None);
   (0x584, Ll, Some 0x554, None); (0x585, Ll, Some 0x555, None); (0x586, Ll, Some 0x556, None);
   (0x10a0, Lu, None, Some 0x2d00); (0x10a1, Lu, None, Some 0x2d01); (0x10a2, Lu, None, Some 0x2d02);
   (0x10a3, Lu, None, Some 0x2d03); (0x10a4, Lu, None, Some 0x2d04); (0x10a5, Lu, None, Some 0x2d05);
   (0x10a6, Lu, None, Some 0x2d06); (0x10a7, Lu, None, Some 0x2d07); (0x10a8, Lu, None, Some 0x2d08);
   (0x10a9, Lu, None, Some 0x2d09); (0x10aa, Lu, None, Some 0x2d0a); (0x10ab, Lu, None, Some 0x2d0b);
   (0x10ac, Lu, None, Some 0x2d0c); (0x10ad, Lu, None, Some 0x2d0d); (0x10ae, Lu, None, Some 0x2d0e);
   (0x10af, Lu, None, Some 0x2d0f); (0x10b0, Lu, None, Some 0x2d10); (0x10b1, Lu, None, Some 0x2d11);
   (0x10b2, Lu, None, Some 0x2d12); (0x10b3, Lu, None, Some 0x2d13); (0x10b4, Lu, None, Some 0x2d14);
   (0x10b5, Lu, None, Some 0x2d15); (0x10b6, Lu, None, Some 0x2d16); (0x10b7, Lu, None, Some 0x2d17);
   (0x10b8, Lu, None, Some 0x2d18); (0x10b9, Lu, None, Some 0x2d19); (0x10ba, Lu, None, Some 0x2d1a);
   (0x10bb, Lu, None, Some 0x2d1b); (0x10bc, Lu, None, Some 0x2d1c); (0x10bd, Lu, None, Some 0x2d1d);
   (0x10be, Lu, None, Some 0x2d1e); (0x10bf, Lu, None, Some 0x2d1f); (0x10c0, Lu, None, Some 0x2d20);
   (0x10c1, Lu, None, Some 0x2d21); (0x10c2, Lu, None, Some 0x2d22); (0x10c3, Lu, None, Some 0x2d23);
   (0x10c4, Lu, None, Some 0x2d24); (0x10c5, Lu, None, Some 0x2d25); (0x10c7, Lu, None, Some 0x2d27);
   (0x10cd, Lu, None, Some 0x2d2d); (0x10d0, Ll, Some 0x1c90, None); (0x10d1, Ll, Some 0x1c91, None);
   (0x10d2, Ll, Some 0x1c92, None); (0x10d3, Ll, Some 0x1c93, None); (0x10d4, Ll, Some 0x1c94, None);
   (0x10d5, Ll, Some 0x1c95, None); (0x10d6, Ll, Some 0x1c96, None); (0x10d7, Ll, Some 0x1c97, None);
   (0x10d8, Ll, Some 0x1c98, None); (0x10d9, Ll, Some 0x1c99, None); (0x10da, Ll, Some 0x1c9a, None);
   (0x10db, Ll, Some 0x1c9b, None); (0x10dc, Ll, Some 0x1c9c, None); (0x10dd, Ll, Some 0x1c9d, None);
   (0x10de, Ll, Some 0x1c9e, None); (0x10df, Ll, Some 0x1c9f, None); (0x10e0, Ll, Some 0x1ca0, None);
   (0x10e1, Ll, Some 0x1ca1, None); (0x10e2, Ll, Some 0x1ca2, None); (0x10e3, Ll, Some 0x1ca3, None);
   (0x10e4, Ll, Some 0x1ca4, None); (0x10e5, Ll, Some 0x1ca5, None); (0x10e6, Ll, Some 0x1ca6, None);
   (0x10e7, Ll, Some 0x1ca7, None); (0x10e8, Ll, Some 0x1ca8, None); (0x10e9, Ll, Some 0x1ca9, None);
   (0x10ea, Ll, Some 0x1caa, None); (0x10eb, Ll, Some 0x1cab, None); (0x10ec, Ll, Some 0x1cac, None);
   (0x10ed, Ll, Some 0x1cad, None); (0x10ee, Ll, Some 0x1cae, None); (0x10ef, Ll, Some 0x1caf, None);
   (0x10f0, Ll, Some 0x1cb0, None); (0x10f1, Ll, Some 0x1cb1, None); (0x10f2, Ll, Some 0x1cb2, None);
   (0x10f3, Ll, Some 0x1cb3, None); (0x10f4, Ll, Some 0x1cb4, None); (0x10f5, Ll, Some 0x1cb5, None);
   (0x10f6, Ll, Some 0x1cb6, None); (0x10f7, Ll, Some 0x1cb7, None); (0x10f8, Ll, Some 0x1cb8, None);
   (0x10f9, Ll, Some 0x1cb9, None); (0x10fa, Ll, Some 0x1cba, None); (0x10fd, Ll, Some 0x1cbd, None);
   (0x10fe, Ll, Some 0x1cbe, None); (0x10ff, Ll, Some 0x1cbf, None); (0x13a0, Lu, None, Some 0xab70);
   (0x13a1, Lu, None, Some 0xab71); (0x13a2, Lu, None, Some 0xab72); (0x13a3, Lu, None, Some 0xab73);
   (0x13a4, Lu, None, Some 0xab74); (0x13a5, Lu, None, Some 0xab75); (0x13a6, Lu, None, Some 0xab76);
   (0x13a7, Lu, None, Some 0xab77); (0x13a8, Lu, None, Some 0xab78); (0x13a9, Lu, None, Some 0xab79);
   (0x13aa, Lu, None, Some 0xab7a); (0x13ab, Lu, None, Some 0xab7b); (0x13ac, Lu, None, Some 0xab7c);
   (0x13ad, Lu, None, Some 0xab7d); (0x13ae, Lu, None, Some 0xab7e); (0x13af, Lu, None, Some 0xab7f);
   (0x13b0, Lu, None, Some 0xab80); (0x13b1, Lu, None, Some 0xab81); (0x13b2, Lu, None, Some 0xab82);
   (0x13b3, Lu, None, Some 0xab83); (0x13b4, Lu, None, Some 0xab84); (0x13b5, Lu, None, Some 0xab85);
   (0x13b6, Lu, None, Some 0xab86); (0x13b7, Lu, None, Some 0xab87); (0x13b8, Lu, None, Some 0xab88);
   (0x13b9, Lu, None, Some 0xab89); (0x13ba, Lu, None, Some 0xab8a); (0x13bb, Lu, None, Some 0xab8b);
   (0x13bc, Lu, None, Some 0xab8c); (0x13bd, Lu, None, Some 0xab8d); (0x13be, Lu, None, Some 0xab8e);
   (0x13bf, Lu, None, Some 0xab8f); (0x13c0, Lu, None, Some 0xab90); (0x13c1, Lu, None, Some 0xab91);
   (0x13c2, Lu, None, Some 0xab92); (0x13c3, Lu, None, Some 0xab93); (0x13c4, Lu, None, Some 0xab94);
   (0x13c5, Lu, None, Some 0xab95); (0x13c6, Lu, None, Some 0xab96); (0x13c7, Lu, None, Some 0xab97);
   (0x13c8, Lu, None, Some 0xab98); (0x13c9, Lu, None, Some 0xab99); (0x13ca, Lu, None, Some 0xab9a);
   (0x13cb, Lu, None, Some 0xab9b); (0x13cc, Lu, None, Some 0xab9c); (0x13cd, Lu, None, Some 0xab9d);
   (0x13ce, Lu, None, Some 0xab9e); (0x13cf, Lu, None, Some 0xab9f); (0x13d0, Lu, None, Some 0xaba0);
   (0x13d1, Lu, None, Some 0xaba1); (0x13d2, Lu, None, Some 0xaba2); (0x13d3, Lu, None, Some 0xaba3);
   (0x13d4, Lu, None, Some 0xaba4); (0x13d5, Lu, None, Some 0xaba5); (0x13d6, Lu, None, Some 0xaba6);
   (0x13d7, Lu, None, Some 0xaba7); (0x13d8, Lu, None, Some 0xaba8); (0x13d9, Lu, None, Some 0xaba9);
   (0x13da, Lu, None, Some 0xabaa); (0x13db, Lu, None, Some 0xabab); (0x13dc, Lu, None, Some 0xabac);
   (0x13dd, Lu, None, Some 0xabad); (0x13de, Lu, None, Some 0xabae); (0x13df, Lu, None, Some 0xabaf);
   (0x13e0, Lu, None, Some 0xabb0); (0x13e1, Lu, None, Some 0xabb1); (0x13e2, Lu, None, Some 0xabb2);
   (0x13e3, Lu, None, Some 0xabb3); (0x13e4, Lu, None, Some 0xabb4); (0x13e5, Lu, None, Some 0xabb5);
   (0x13e6, Lu, None, Some 0xabb6); (0x13e7, Lu, None, Some 0xabb7); (0x13e8, Lu, None, Some 0xabb8);
   (0x13e9, Lu, None, Some 0xabb9); (0x13ea, Lu, None, Some 0xabba); (0x13eb, Lu, None, Some 0xabbb);
   (0x13ec, Lu, None, Some 0xabbc); (0x13ed, Lu, None, Some 0xabbd); (0x13ee, Lu, None, Some 0xabbe);
   (0x13ef, Lu, None, Some 0xabbf); (0x13f0, Lu, None, Some 0x13f8); (0x13f1, Lu, None, Some 0x13f9);
   (0x13f2, Lu, None, Some 0x13fa); (0x13f3, Lu, None, Some 0x13fb); (0x13f4, Lu, None, Some 0x13fc);
   (0x13f5, Lu, None, Some 0x13fd); (0x13f8, Ll, Some 0x13f0, None); (0x13f9, Ll, Some 0x13f1, None);
   (0x13fa, Ll, Some 0x13f2, None); (0x13fb, Ll, Some 0x13f3, None); (0x13fc, Ll, Some 0x13f4, None);
   (0x13fd, Ll, Some 0x13f5, None); (0x1c80, Ll, Some 0x412, None); (0x1c81, Ll, Some 0x414, None);
   (0x1c82, Ll, Some 0x41e, None); (0x1c83, Ll, Some 0x421, None); (0x1c84, Ll, Some 0x422, None);
   (0x1c85, Ll, Some 0x422, None); (0x1c86, Ll, Some 0x42a, None); (0x1c87, Ll, Some 0x462, None);
   (0x1c88, Ll, Some 0xa64a, None); (0x1c90, Lu, None, Some 0x10d0); (0x1c91, Lu, None, Some 0x10d1);
   (0x1c92, Lu, None, Some 0x10d2); (0x1c93, Lu, None, Some 0x10d3); (0x1c94, Lu, None, Some 0x10d4);
   (0x1c95, Lu, None, Some 0x10d5); (0x1c96, Lu, None, Some 0x10d6); (0x1c97, Lu, None, Some 0x10d7);
   (0x1c98, Lu, None, Some 0x10d8); (0x1c99, Lu, None, Some 0x10d9); (0x1c9a, Lu, None, Some 0x10da);
   (0x1c9b, Lu, None, Some 0x10db); (0x1c9c, Lu, None, Some 0x10dc); (0x1c9d, Lu, None, Some 0x10dd);
   (0x1c9e, Lu, None, Some 0x10de); (0x1c9f, Lu, None, Some 0x10df); (0x1ca0, Lu, None, Some 0x10e0);
   (0x1ca1, Lu, None, Some 0x10e1); (0x1ca2, Lu, None, Some 0x10e2); (0x1ca3, Lu, None, Some 0x10e3);
   (0x1ca4, Lu, None, Some 0x10e4); (0x1ca5, Lu, None, Some 0x10e5); (0x1ca6, Lu, None, Some 0x10e6);
   (0x1ca7, Lu, None, Some 0x10e7); (0x1ca8, Lu, None, Some 0x10e8); (0x1ca9, Lu, None, Some 0x10e9);
   (0x1caa, Lu, None, Some 0x10ea); (0x1cab, Lu, None, Some 0x10eb); (0x1cac, Lu, None, Some 0x10ec);
   (0x1cad, Lu, None, Some 0x10ed); (0x1cae, Lu, None, Some 0x10ee); (0x1caf, Lu, None, Some 0x10ef);
   (0x1cb0, Lu, None, Some 0x10f0); (0x1cb1, Lu, None, Some 0x10f1); (0x1cb2, Lu, None, Some 0x10f2);
   (0x1cb3, Lu, None, Some 0x10f3); (0x1cb4, Lu, None, Some 0x10f4); (0x1cb5, Lu, None, Some 0x10f5);
   (0x1cb6, Lu, None, Some 0x10f6); (0x1cb7, Lu, None, Some 0x10f7); (0x1cb8, Lu, None, Some 0x10f8);
   (0x1cb9, Lu, None, Some 0x10f9); (0x1cba, Lu, None, Some 0x10fa); (0x1cbd, Lu, None, Some 0x10fd);
   (0x1cbe, Lu, None, Some 0x10fe); (0x1cbf, Lu, None, Some 0x10ff); (0x1d79, Ll, Some 0xa77d, None);
   (0x1d7d, Ll, Some 0x2c63, None); (0x1d8e, Ll, Some 0xa7c6, None); (0x1e00, Lu, None, Some 0x1e01);
   (0x1e01, Ll, Some 0x1e00, None); (0x1e02, Lu, None, Some 0x1e03); (0x1e03, Ll, Some 0x1e02, None);
   (0x1e04, Lu, None, Some 0x1e05); (0x1e05, Ll, Some 0x1e04, None); (0x1e06, Lu, None, Some 0x1e07);
   (0x1e07, Ll, Some 0x1e06, None); (0x1e08, Lu, None, Some 0x1e09); (0x1e09, Ll, Some 0x1e08, None);
   (0x1e0a, Lu, None, Some 0x1e0b); (0x1e0b, Ll, Some 0x1e0a, None); (0x1e0c, Lu, None, Some 0x1e0d);
   (0x1e0d, Ll, Some 0x1e0c, None); (0x1e0e, Lu, None, Some 0x1e0f); (0x1e0f, Ll, Some 0x1e0e, None);
   (0x1e10, Lu, None, Some 0x1e11); (0x1e11, Ll, Some 0x1e10, None); (0x1e12, Lu, None, Some 0x1e13);
   (0x1e13, Ll, Some 0x1e12, None); (0x1e14, Lu, None, Some 0x1e15); (0x1e15, Ll, Some 0x1e14, None);
   (0x1e16, Lu, None, Some 0x1e17); (0x1e17, Ll, Some 0x1e16, None); (0x1e18, Lu, None, Some 0x1e19);
   (0x1e19, Ll, Some 0x1e18, None); (0x1e1a, Lu, None, Some 0x1e1b); (0x1e1b, Ll, Some 0x1e1a, None);
   (0x1e1c, Lu, None, Some 0x1e1d); (0x1e1d, Ll, Some 0x1e1c, None); (0x1e1e, Lu, None, Some 0x1e1f);
   (0x1e1f, Ll, Some 0x1e1e, None); (0x1e20, Lu, None, Some 0x1e21); (0x1e21, Ll, Some 0x1e20, None);
   (0x1e22, Lu, None, Some 0x1e23); (0x1e23, Ll, Some 0x1e22, None); (0x1e24, Lu, None, Some 0x1e25);
   (0x1e25, Ll, Some 0x1e24, None); (0x1e26, Lu, None, Some 0x1e27); (0x1e27, Ll, Some 0x1e26, None);
   (0x1e28, Lu, None, Some 0x1e29); (0x1e29, Ll, Some 0x1e28, None); (0x1e2a, Lu, None, Some 0x1e2b);
   (0x1e2b, Ll, Some 0x1e2a, None); (0x1e2c, Lu, None, Some 0x1e2d); (0x1e2d, Ll, Some 0x1e2c, None);
   (0x1e2e, Lu, None, Some 0x1e2f); (0x1e2f, Ll, Some 0x1e2e, None); (0x1e30, Lu, None, Some 0x1e31);
   (0x1e31, Ll, Some 0x1e30, None); (0x1e32, Lu, None, Some 0x1e33); (0x1e33, Ll, Some 0x1e32, None);
   (0x1e34, Lu, None, Some 0x1e35); (0x1e35, Ll, Some 0x1e34, None); (0x1e36, Lu, None, Some 0x1e37);
   (0x1e37, Ll, Some 0x1e36, None); (0x1e38, Lu, None, Some 0x1e39); (0x1e39, Ll, Some 0x1e38, None);
   (0x1e3a, Lu, None, Some 0x1e3b); (0x1e3b, Ll, Some 0x1e3a, None); (0x1e3c, Lu, None, Some 0x1e3d);
   (0x1e3d, Ll, Some 0x1e3c, None); (0x1e3e, Lu, None, Some 0x1e3f); (0x1e3f, Ll, Some 0x1e3e, None);
   (0x1e40, Lu, None, Some 0x1e41); (0x1e41, Ll, Some 0x1e40, None); (0x1e42, Lu, None, Some 0x1e43);
   (0x1e43, Ll, Some 0x1e42, None); (0x1e44, Lu, None, Some 0x1e45); (0x1e45, Ll, Some 0x1e44, None);
   (0x1e46, Lu, None, Some 0x1e47); (0x1e47, Ll, Some 0x1e46, None); (0x1e48, Lu, None, Some 0x1e49);
   (0x1e49, Ll, Some 0x1e48, None); (0x1e4a, Lu, None, Some 0x1e4b); (0x1e4b, Ll, Some 0x1e4a, None);
   (0x1e4c, Lu, None, Some 0x1e4d); (0x1e4d, Ll, Some 0x1e4c, None); (0x1e4e, Lu, None, Some 0x1e4f);
   (0x1e4f, Ll, Some 0x1e4e, None); (0x1e50, Lu, None, Some 0x1e51); (0x1e51, Ll, Some 0x1e50, None);
   (0x1e52, Lu, None, Some 0x1e53); (0x1e53, Ll, Some 0x1e52, None); (0x1e54, Lu, None, Some 0x1e55);
   (0x1e55, Ll, Some 0x1e54, None); (0x1e56, Lu, None, Some 0x1e57); (0x1e57, Ll, Some 0x1e56, None);
   (0x1e58, Lu, None, Some 0x1e59); (0x1e59, Ll, Some 0x1e58, None); (0x1e5a, Lu, None, Some 0x1e5b);
   (0x1e5b, Ll, Some 0x1e5a, None); (0x1e5c, Lu, None, Some 0x1e5d); (0x1e5d, Ll, Some 0x1e5c, None);
   (0x1e5e, Lu, None, Some 0x1e5f); (0x1e5f, Ll, Some 0x1e5e, None); (0x1e60, Lu, None, Some 0x1e61);
   (0x1e61, Ll, Some 0x1e60, None); (0x1e62, Lu, None, Some 0x1e63); (0x1e63, Ll, Some 0x1e62, None);
   (0x1e64, Lu, None, Some 0x1e65); (0x1e65, Ll, Some 0x1e64, None); (0x1e66, Lu, None, Some 0x1e67);
   (0x1e67, Ll, Some 0x1e66, None); (0x1e68, Lu, None, Some 0x1e69); (0x1e69, Ll, Some 0x1e68, None);
   (0x1e6a, Lu, None, Some 0x1e6b); (0x1e6b, Ll, Some 0x1e6a, None); (0x1e6c, Lu, None, Some 0x1e6d);
   (0x1e6d, Ll, Some 0x1e6c, None); (0x1e6e, Lu, None, Some 0x1e6f); (0x1e6f, Ll, Some 0x1e6e, None);
   (0x1e70, Lu, None, Some 0x1e71); (0x1e71, Ll, Some 0x1e70, None); (0x1e72, Lu, None, Some 0x1e73);
   (0x1e73, Ll, Some 0x1e72, None); (0x1e74, Lu, None, Some 0x1e75); (0x1e75, Ll, Some 0x1e74, None);
   (0x1e76, Lu, None, Some 0x1e77); (0x1e77, Ll, Some 0x1e76, None); (0x1e78, Lu, None, Some 0x1e79);
   (0x1e79, Ll, Some 0x1e78, None); (0x1e7a, Lu, None, Some 0x1e7b); (0x1e7b, Ll, Some 0x1e7a, None);
   (0x1e7c, Lu, None, Some 0x1e7d); (0x1e7d, Ll, Some 0x1e7c, None); (0x1e7e, Lu, None, Some 0x1e7f);
   (0x1e7f, Ll, Some 0x1e7e, None); (0x1e80, Lu, None, Some 0x1e81); (0x1e81, Ll, Some 0x1e80, None);
   (0x1e82, Lu, None, Some 0x1e83); (0x1e83, Ll, Some 0x1e82, None); (0x1e84, Lu, None, Some 0x1e85);
   (0x1e85, Ll, Some 0x1e84, None); (0x1e86, Lu, None, Some 0x1e87); (0x1e87, Ll, Some 0x1e86, None);
   (0x1e88, Lu, None, Some 0x1e89); (0x1e89, Ll, Some 0x1e88, None); (0x1e8a, Lu, None, Some 0x1e8b);
   (0x1e8b, Ll, Some 0x1e8a, None); (0x1e8c, Lu, None, Some 0x1e8d); (0x1e8d, Ll, Some 0x1e8c, None);
   (0x1e8e, Lu, None, Some 0x1e8f); (0x1e8f, Ll, Some 0x1e8e, None); (0x1e90, Lu, None, Some 0x1e91);
   (0x1e91, Ll, Some 0x1e90, None); (0x1e92, Lu, None, Some 0x1e93); (0x1e93, Ll, Some 0x1e92, None);
   (0x1e94, Lu, None, Some 0x1e95); (0x1e95, Ll, Some 0x1e94, None); (0x1e9b, Ll, Some 0x1e60, None);
   (0x1e9e, Lu, None, Some 0xdf); (0x1ea0, Lu, None, Some 0x1ea1); (0x1ea1, Ll, Some 0x1ea0, None);
   (0x1ea2, Lu, None, Some 0x1ea3); (0x1ea3, Ll, Some 0x1ea2, None); (0x1ea4, Lu, None, Some 0x1ea5);
   (0x1ea5, Ll, Some 0x1ea4, None); (0x1ea6, Lu, None, Some 0x1ea7); (0x1ea7, Ll, Some 0x1ea6, None);
   (0x1ea8, Lu, None, Some 0x1ea9); (0x1ea9, Ll, Some 0x1ea8, None); (0x1eaa, Lu, None, Some 0x1eab);
   (0x1eab, Ll, Some 0x1eaa, None); (0x1eac, Lu, None, Some 0x1ead); (0x1ead, Ll, Some 0x1eac, None);
   (0x1eae, Lu, None, Some 0x1eaf); (0x1eaf, Ll, Some 0x1eae, None); (0x1eb0, Lu, None, Some 0x1eb1);
   (0x1eb1, Ll, Some 0x1eb0, None); (0x1eb2, Lu, None, Some 0x1eb3); (0x1eb3, Ll, Some 0x1eb2, None);
   (0x1eb4, Lu, None, Some 0x1eb5); (0x1eb5, Ll, Some 0x1eb4, None); (0x1eb6, Lu, None, Some 0x1eb7);
   (0x1eb7, Ll, Some 0x1eb6, None); (0x1eb8, Lu, None, Some 0x1eb9); (0x1eb9, Ll, Some 0x1eb8, None);
   (0x1eba, Lu, None, Some 0x1ebb); (0x1ebb, Ll, Some 0x1eba, None); (0x1ebc, Lu, None, Some 0x1ebd);
   (0x1ebd, Ll, Some 0x1ebc, None); (0x1ebe, Lu, None, Some 0x1ebf); (0x1ebf, Ll, Some 0x1ebe, None);
   (0x1ec0, Lu, None, Some 0x1ec1); (0x1ec1, Ll, Some 0x1ec0, None); (0x1ec2, Lu, None, Some 0x1ec3);
   (0x1ec3, Ll, Some 0x1ec2, None); (0x1ec4, Lu, None, Some 0x1ec5); (0x1ec5, Ll, Some 0x1ec4, None);
   (0x1ec6, Lu, None, Some 0x1ec7); (0x1ec7, Ll, Some 0x1ec6, None); (0x1ec8, Lu, None, Some 0x1ec9);
   (0x1ec9, Ll, Some 0x1ec8, None); (0x1eca, Lu, None, Some 0x1ecb); (0x1ecb, Ll, Some 0x1eca, None);
   (0x1ecc, Lu, None, Some 0x1ecd); (0x1ecd, Ll, Some 0x1ecc, None); (0x1ece, Lu, None, Some 0x1ecf);
   (0x1ecf, Ll, Some 0x1ece, None); (0x1ed0, Lu, None, Some 0x1ed1); (0x1ed1, Ll, Some 0x1ed0, None);
   (0x1ed2, Lu, None, Some 0x1ed3); (0x1ed3, Ll, Some 0x1ed2, None); (0x1ed4, Lu, None, Some 0x1ed5);
   (0x1ed5, Ll, Some 0x1ed4, None); (0x1ed6, Lu, None, Some 0x1ed7); (0x1ed7, Ll, Some 0x1ed6, None);
   (0x1ed8, Lu, None, Some 0x1ed9); (0x1ed9, Ll, Some 0x1ed8, None); (0x1eda, Lu, None, Some 0x1edb);
   (0x1edb, Ll, Some 0x1eda, None); (0x1edc, Lu, None, Some 0x1edd); (0x1edd, Ll, Some 0x1edc, None);
   (0x1ede, Lu, None, Some 0x1edf); (0x1edf, Ll, Some 0x1ede, None); (0x1ee0, Lu, None, Some 0x1ee1);
   (0x1ee1, Ll, Some 0x1ee0, None); (0x1ee2, Lu, None, Some 0x1ee3); (0x1ee3, Ll, Some 0x1ee2, None);
   (0x1ee4, Lu, None, Some 0x1ee5); (0x1ee5, Ll, Some 0x1ee4, None); (0x1ee6, Lu, None, Some 0x1ee7);
   (0x1ee7, Ll, Some 0x1ee6, None); (0x1ee8, Lu, None, Some 0x1ee9); (0x1ee9, Ll, Some 0x1ee8, None);
   (0x1eea, Lu, None, Some 0x1eeb); (0x1eeb, Ll, Some 0x1eea, None); (0x1eec, Lu, None, Some 0x1eed);
   (0x1eed, Ll, Some 0x1eec, None); (0x1eee, Lu, None, Some 0x1eef); (0x1eef, Ll, Some 0x1eee, None);
   (0x1ef0, Lu, None, Some 0x1ef1); (0x1ef1, Ll, Some 0x1ef0, None); (0x1ef2, Lu, None, Some 0x1ef3);
   (0x1ef3, Ll, Some 0x1ef2, None); (0x1ef4, Lu, None, Some 0x1ef5); (0x1ef5, Ll, Some 0x1ef4, None);
   (0x1ef6, Lu, None, Some 0x1ef7); (0x1ef7, Ll, Some 0x1ef6, None); (0x1ef8, Lu, None, Some 0x1ef9);
   (0x1ef9, Ll, Some 0x1ef8, None); (0x1efa, Lu, None, Some 0x1efb); (0x1efb, Ll, Some 0x1efa, None);
   (0x1efc, Lu, None, Some 0x1efd); (0x1efd, Ll, Some 0x1efc, None); (0x1efe, Lu, None, Some 0x1eff);
   (0x1eff, Ll, Some 0x1efe, None); (0x1f00, Ll, Some 0x1f08, None); (0x1f01, Ll, Some 0x1f09, None);
   (0x1f02, Ll, Some 0x1f0a, None); (0x1f03, Ll, Some 0x1f0b, None); (0x1f04, Ll, Some 0x1f0c, None);
   (0x1f05, Ll, Some 0x1f0d, None); (0x1f06, Ll, Some 0x1f0e, None); (0x1f07, Ll, Some 0x1f0f, None);
   (0x1f08, Lu, None, Some 0x1f00); (0x1f09, Lu, None, Some 0x1f01); (0x1f0a, Lu, None, Some 0x1f02);
   (0x1f0b, Lu, None, Some 0x1f03); (0x1f0c, Lu, None, Some 0x1f04); (0x1f0d, Lu, None, Some 0x1f05);
   (0x1f0e, Lu, None, Some 0x1f06); (0x1f0f, Lu, None, Some 0x1f07); (0x1f10, Ll, Some 0x1f18, None);
   (0x1f11, Ll, Some 0x1f19, None); (0x1f12, Ll, Some 0x1f1a, None); (0x1f13, Ll, Some 0x1f1b, None);
   (0x1f14, Ll, Some 0x1f1c, None); (0x1f15, Ll, Some 0x1f1d, None); (0x1f18, Lu, None, Some 0x1f10);
   (0x1f19, Lu, None, Some 0x1f11); (0x1f1a, Lu, None, Some 0x1f12); (0x1f1b, Lu, None, Some 0x1f13);
   (0x1f1c, Lu, None, Some 0x1f14); (0x1f1d, Lu, None, Some 0x1f15); (0x1f20, Ll, Some 0x1f28, None);
   (0x1f21, Ll, Some 0x1f29, None); (0x1f22, Ll, Some 0x1f2a, None); (0x1f23, Ll, Some 0x1f2b, None);
   (0x1f24, Ll, Some 0x1f2c, None); (0x1f25, Ll, Some 0x1f2d, None); (0x1f26, Ll, Some 0x1f2e, None);
   (0x1f27, Ll, Some 0x1f2f, None); (0x1f28, Lu, None, Some 0x1f20); (0x1f29, Lu, None, Some 0x1f21);
   (0x1f2a, Lu, None, Some 0x1f22); (0x1f2b, Lu, None, Some 0x1f23); (0x1f2c, Lu, None, Some 0x1f24);
   (0x1f2d, Lu, None, Some 0x1f25); (0x1f2e, Lu, None, Some 0x1f26); (0x1f2f, Lu, None, Some 0x1f27);
   (0x1f30, Ll, Some 0x1f38, None); (0x1f31, Ll, Some 0x1f39, None); (0x1f32, Ll, Some 0x1f3a, None);
   (0x1f33, Ll, Some 0x1f3b, None); (0x1f34, Ll, Some 0x1f3c, None); (0x1f35, Ll, Some 0x1f3d, None);
   (0x1f36, Ll, Some 0x1f3e, None); (0x1f37, Ll, Some 0x1f3f, None); (0x1f38, Lu, None, Some 0x1f30);
   (0x1f39, Lu, None, Some 0x1f31); (0x1f3a, Lu, None, Some 0x1f32); (0x1f3b, Lu, None, Some 0x1f33);
   (0x1f3c, Lu, None, Some 0x1f34); (0x1f3d, Lu, None, Some 0x1f35); (0x1f3e, Lu, None, Some 0x1f36);
   (0x1f3f, Lu, None, Some 0x1f37); (0x1f40, Ll, Some 0x1f48, None); (0x1f41, Ll, Some 0x1f49, None);
   (0x1f42, Ll, Some 0x1f4a, None); (0x1f43, Ll, Some 0x1f4b, None); (0x1f44, Ll, Some 0x1f4c, None);
   (0x1f45, Ll, Some 0x1f4d, None); (0x1f48, Lu, None, Some 0x1f40); (0x1f49, Lu, None, Some 0x1f41);
   (0x1f4a, Lu, None, Some 0x1f42); (0x1f4b, Lu, None, Some 0x1f43); (0x1f4c, Lu, None, Some 0x1f44);
   (0x1f4d, Lu, None, Some 0x1f45); (0x1f51, Ll, Some 0x1f59, None); (0x1f53, Ll, Some 0x1f5b, None);
   (0x1f55, Ll, Some 0x1f5d, None); (0x1f57, Ll, Some 0x1f5f, None); (0x1f59, Lu, None, Some 0x1f51);
   (0x1f5b, Lu, None, Some 0x1f53); (0x1f5d, Lu, None, Some 0x1f55); (0x1f5f, Lu, None, Some 0x1f57);
   (0x1f60, Ll, Some 0x1f68, None); (0x1f61, Ll, Some 0x1f69, None); (0x1f62, Ll, Some 0x1f6a, None);
   (0x1f63, Ll, Some 0x1f6b, None); (0x1f64, Ll, Some 0x1f6c, None); (0x1f65, Ll, Some 0x1f6d, None);
   (0x1f66, Ll, Some 0x1f6e, None); (0x1f67, Ll, Some 0x1f6f, None); (0x1f68, Lu, None, Some 0x1f60);
   (0x1f69, Lu, None, Some 0x1f61); (0x1f6a, Lu, None, Some 0x1f62); (0x1f6b, Lu, None, Some 0x1f63);
   (0x1f6c, Lu, None, Some 0x1f64); (0x1f6d, Lu, None, Some 0x1f65); (0x1f6e, Lu, None, Some 0x1f66);
   (0x1f6f, Lu, None, Some 0x1f67); (0x1f70, Ll, Some 0x1fba, None); (0x1f71, Ll, Some 0x1fbb, None);
   (0x1f72, Ll, Some 0x1fc8, None); (0x1f73, Ll, Some 0x1fc9, None); (0x1f74, Ll, Some 0x1fca, None);
   (0x1f75, Ll, Some 0x1fcb, None); (0x1f76, Ll, Some 0x1fda, None); (0x1f77, Ll, Some 0x1fdb, None);
   (0x1f78, Ll, Some 0x1ff8, None); (0x1f79, Ll, Some 0x1ff9, None); (0x1f7a, Ll, Some 0x1fea, None);
   (0x1f7b, Ll, Some 0x1feb, None); (0x1f7c, Ll, Some 0x1ffa, None); (0x1f7d, Ll, Some 0x1ffb, None);
   (0x1f80, Ll, Some 0x1f88, None); (0x1f81, Ll, Some 0x1f89, None); (0x1f82, Ll, Some 0x1f8a, None);
   (0x1f83, Ll, Some 0x1f8b, None); (0x1f84, Ll, Some 0x1f8c, None); (0x1f85, Ll, Some 0x1f8d, None);
   (0x1f86, Ll, Some 0x1f8e, None); (0x1f87, Ll, Some 0x1f8f, None); (0x1f88, Lt, None, Some 0x1f80);
   (0x1f89, Lt, None, Some 0x1f81); (0x1f8a, Lt, None, Some 0x1f82); (0x1f8b, Lt, None, Some 0x1f83);
   (0x1f8c, Lt, None, Some 0x1f84); (0x1f8d, Lt, None, Some 0x1f85); (0x1f8e, Lt, None, Some 0x1f86);
   (0x1f8f, Lt, None, Some 0x1f87); (0x1f90, Ll, Some 0x1f98, None); (0x1f91, Ll, Some 0x1f99, None);
   (0x1f92, Ll, Some 0x1f9a, None); (0x1f93, Ll, Some 0x1f9b, None); (0x1f94, Ll, Some 0x1f9c, None);
   (0x1f95, Ll, Some 0x1f9d, None); (0x1f96, Ll, Some 0x1f9e, None); (0x1f97, Ll, Some 0x1f9f, None);
   (0x1f98, Lt, None, Some 0x1f90); (0x1f99, Lt, None, Some 0x1f91); (0x1f9a, Lt, None, Some 0x1f92);
   (0x1f9b, Lt, None, Some 0x1f93); (0x1f9c, Lt, None, Some 0x1f94); (0x1f9d, Lt, None, Some 0x1f95);
   (0x1f9e, Lt, None, Some 0x1f96); (0x1f9f, Lt, None, Some 0x1f97); (0x1fa0, Ll, Some 0x1fa8, None);
   (0x1fa1, Ll, Some 0x1fa9, None); (0x1fa2, Ll, Some 0x1faa, None); (0x1fa3, Ll, Some 0x1fab, None);
   (0x1fa4, Ll, Some 0x1fac, None); (0x1fa5, Ll, Some 0x1fad, None); (0x1fa6, Ll, Some 0x1fae, None);
   (0x1fa7, Ll, Some 0x1faf, None); (0x1fa8, Lt, None, Some 0x1fa0); (0x1fa9, Lt, None, Some 0x1fa1);
   (0x1faa, Lt, None, Some 0x1fa2); (0x1fab, Lt, None, Some 0x1fa3); (0x1fac, Lt, None, Some 0x1fa4);
   (0x1fad, Lt, None, Some 0x1fa5); (0x1fae, Lt, None, Some 0x1fa6); (0x1faf, Lt, None, Some 0x1fa7);
   (0x1fb0, Ll, Some 0x1fb8, None); (0x1fb1, Ll, Some 0x1fb9, None); (0x1fb3, Ll, Some 0x1fbc, None);
   (0x1fb8, Lu, None, Some 0x1fb0); (0x1fb9, Lu, None, Some 0x1fb1); (0x1fba, Lu, None, Some 0x1f70);
   (0x1fbb, Lu, None, Some 0x1f71); (0x1fbc, Lt, None, Some 0x1fb3); (0x1fbe, Ll, Some 0x399, None);
   (0x1fc3, Ll, Some 0x1fcc, None); (0x1fc8, Lu, None, Some 0x1f72); (0x1fc9, Lu, None, Some 0x1f73);
   (0x1fca, Lu, None, Some 0x1f74); (0x1fcb, Lu, None, Some 0x1f75); (0x1fcc, Lt, None, Some 0x1fc3);
   (0x1fd0, Ll, Some 0x1fd8, None); (0x1fd1, Ll, Some 0x1fd9, None); (0x1fd8, Lu, None, Some 0x1fd0);
   (0x1fd9, Lu, None, Some 0x1fd1); (0x1fda, Lu, None, Some 0x1f76); (0x1fdb, Lu, None, Some 0x1f77);
   (0x1fe0, Ll, Some 0x1fe8, None); (0x1fe1, Ll, Some 0x1fe9, None); (0x1fe5, Ll, Some 0x1fec, None);
   (0x1fe8, Lu, None, Some 0x1fe0); (0x1fe9, Lu, None, Some 0x1fe1); (0x1fea, Lu, None, Some 0x1f7a);
   (0x1feb, Lu, None, Some 0x1f7b); (0x1fec, Lu, None, Some 0x1fe5); (0x1ff3, Ll, Some 0x1ffc, None);
   (0x1ff8, Lu, None, Some 0x1f78); (0x1ff9, Lu, None, Some 0x1f79); (0x1ffa, Lu, None, Some 0x1f7c);
   (0x1ffb, Lu, None, Some 0x1f7d); (0x1ffc, Lt, None, Some 0x1ff3); (0x2126, Lu, None, Some 0x3c9);
   (0x212a, Lu, None, Some 0x6b); (0x212b, Lu, None, Some 0xe5); (0x2132, Lu, None, Some 0x214e);
   (0x214e, Ll, Some 0x2132, None); (0x2160, Nl, None, Some 0x2170); (0x2161, Nl, None, Some 0x2171);
   (0x2162, Nl, None, Some 0x2172); (0x2163, Nl, None, Some 0x2173); (0x2164, Nl, None, Some 0x2174);
   (0x2165, Nl, None, Some 0x2175); (0x2166, Nl, None, Some 0x2176); (0x2167, Nl, None, Some 0x2177);
   (0x2168, Nl, None, Some 0x2178); (0x2169, Nl, None, Some 0x2179); (0x216a, Nl, None, Some 0x217a);
   (0x216b, Nl, None, Some 0x217b); (0x216c, Nl, None, Some 0x217c); (0x216d, Nl, None, Some 0x217d);
   (0x216e, Nl, None, Some 0x217e); (0x216f, Nl, None, Some 0x217f); (0x2170, Nl, Some 0x2160, None);
   (0x2171, Nl, Some 0x2161, None); (0x2172, Nl, Some 0x2162, None); (0x2173, Nl, Some 0x2163, None);
   (0x2174, Nl, Some 0x2164, None); (0x2175, Nl, Some 0x2165, None); (0x2176, Nl, Some 0x2166, None);
   (0x2177, Nl, Some 0x2167, None); (0x2178, Nl, Some 0x2168, None); (0x2179, Nl, Some 0x2169, None);
   (0x217a, Nl, Some 0x216a, None); (0x217b, Nl, Some 0x216b, None); (0x217c, Nl, Some 0x216c, None);
   (0x217d, Nl, Some 0x216d, None); (0x217e, Nl, Some 0x216e, None); (0x217f, Nl, Some 0x216f, None);
   (0x2183, Lu, None, Some 0x2184); (0x2184, Ll, Some 0x2183, None); (0x24b6, So, None, Some 0x24d0);
   (0x24b7, So, None, Some 0x24d1); (0x24b8, So, None, Some 0x24d2); (0x24b9, So, None, Some 0x24d3);
   (0x24ba, So, None, Some 0x24d4); (0x24bb, So, None, Some 0x24d5); (0x24bc, So, None, Some 0x24d6);
   (0x24bd, So, None, Some 0x24d7); (0x24be, So, None, Some 0x24d8); (0x24bf, So, None, Some 0x24d9);
   (0x24c0, So, None, Some 0x24da); (0x24c1, So, None, Some 0x24db); (0x24c2, So, None, Some 0x24dc);
   (0x24c3, So, None, Some 0x24dd); (0x24c4, So, None, Some 0x24de); (0x24c5, So, None, Some 0x24df);
   (0x24c6, So, None, Some 0x24e0); (0x24c7, So, None, Some 0x24e1); (0x24c8, So, None, Some 0x24e2);
   (0x24c9, So, None, Some 0x24e3); (0x24ca, So, None, Some 0x24e4); (0x24cb, So, None, Some 0x24e5);
   (0x24cc, So, None, Some 0x24e6); (0x24cd, So, None, Some 0x24e7); (0x24ce, So, None, Some 0x24e8);
   (0x24cf, So, None, Some 0x24e9); (0x24d0, So, Some 0x24b6, None); (0x24d1, So, Some 0x24b7, None);
   (0x24d2, So, Some 0x24b8, None); (0x24d3, So, Some 0x24b9, None); (0x24d4, So, Some 0x24ba, None);
   (0x24d5, So, Some 0x24bb, None); (0x24d6, So, Some 0x24bc, None); (0x24d7, So, Some 0x24bd, None);
   (0x24d8, So, Some 0x24be, None); (0x24d9, So, Some 0x24bf, None); (0x24da, So, Some 0x24c0, None);
   (0x24db, So, Some 0x24c1, None); (0x24dc, So, Some 0x24c2, None); (0x24dd, So, Some 0x24c3, None);
   (0x24de, So, Some 0x24c4, None); (0x24df, So, Some 0x24c5, None); (0x24e0, So, Some 0x24c6, None);
   (0x24e1, So, Some 0x24c7, None); (0x24e2, So, Some 0x24c8, None); (0x24e3, So, Some 0x24c9, None);
   (0x24e4, So, Some 0x24ca, None); (0x24e5, So, Some 0x24cb, None); (0x24e6, So, Some 0x24cc, None);
   (0x24e7, So, Some 0x24cd, None); (0x24e8, So, Some 0x24ce, None); (0x24e9, So, Some 0x24cf, None);
   (0x2c00, Lu, None, Some 0x2c30); (0x2c01, Lu, None, Some 0x2c31); (0x2c02, Lu, None, Some 0x2c32);
   (0x2c03, Lu, None, Some 0x2c33); (0x2c04, Lu, None, Some 0x2c34); (0x2c05, Lu, None, Some 0x2c35);
   (0x2c06, Lu, None, Some 0x2c36); (0x2c07, Lu, None, Some 0x2c37); (0x2c08, Lu, None, Some 0x2c38);
   (0x2c09, Lu, None, Some 0x2c39); (0x2c0a, Lu, None, Some 0x2c3a); (0x2c0b, Lu, None, Some 0x2c3b);
   (0x2c0c, Lu, None, Some 0x2c3c); (0x2c0d, Lu, None, Some 0x2c3d); (0x2c0e, Lu, None, Some 0x2c3e);
   (0x2c0f, Lu, None, Some 0x2c3f); (0x2c10, Lu, None, Some 0x2c40); (0x2c11, Lu, None, Some 0x2c41);
   (0x2c12, Lu, None, Some 0x2c42); (0x2c13, Lu, None, Some 0x2c43); (0x2c14, Lu, None, Some 0x2c44);
   (0x2c15, Lu, None, Some 0x2c45); (0x2c16, Lu, None, Some 0x2c46); (0x2c17, Lu, None, Some 0x2c47);
   (0x2c18, Lu, None, Some 0x2c48); (0x2c19, Lu, None, Some 0x2c49); (0x2c1a, Lu, None, Some 0x2c4a);
   (0x2c1b, Lu, None, Some 0x2c4b); (0x2c1c, Lu, None, Some 0x2c4c); (0x2c1d, Lu, None, Some 0x2c4d);
   (0x2c1e, Lu, None, Some 0x2c4e); (0x2c1f, Lu, None, Some 0x2c4f); (0x2c20, Lu, None, Some 0x2c50);
   (0x2c21, Lu, None, Some 0x2c51); (0x2c22, Lu, None, Some 0x2c52); (0x2c23, Lu, None, Some 0x2c53);
   (0x2c24, Lu, None, Some 0x2c54); (0x2c25, Lu, None, Some 0x2c55); (0x2c26, Lu, None, Some 0x2c56);
   (0x2c27, Lu, None, Some 0x2c57); (0x2c28, Lu, None, Some 0x2c58); (0x2c29, Lu, None, Some 0x2c59);
   (0x2c2a, Lu, None, Some 0x2c5a); (0x2c2b, Lu, None, Some 0x2c5b); (0x2c2c, Lu, None, Some 0x2c5c);
   (0x2c2d, Lu, None, Some 0x2c5d); (0x2c2e, Lu, None, Some 0x2c5e); (0x2c30, Ll, Some 0x2c00, None);
   (0x2c31, Ll, Some 0x2c01, None); (0x2c32, Ll, Some 0x2c02, None); (0x2c33, Ll, Some 0x2c03, None);
   (0x2c34, Ll, Some 0x2c04, None); (0x2c35, Ll, Some 0x2c05, None); (0x2c36, Ll, Some 0x2c06, None);
   (0x2c37, Ll, Some 0x2c07, None); (0x2c38, Ll, Some 0x2c08, None); (0x2c39, Ll, Some 0x2c09, None);
   (0x2c3a, Ll, Some 0x2c0a, None); (0x2c3b, Ll, Some 0x2c0b, None); (0x2c3c, Ll, Some 0x2c0c, None);
   (0x2c3d, Ll, Some 0x2c0d, None); (0x2c3e, Ll, Some 0x2c0e, None); (0x2c3f, Ll, Some 0x2c0f, None);
   (0x2c40, Ll, Some 0x2c10, None); (0x2c41, Ll, Some 0x2c11, None); (0x2c42, Ll, Some 0x2c12, None);
   (0x2c43, Ll, Some 0x2c13, None); (0x2c44, Ll, Some 0x2c14, None); (0x2c45, Ll, Some 0x2c15, None);
   (0x2c46, Ll, Some 0x2c16, None); (0x2c47, Ll, Some 0x2c17, None); (0x2c48, Ll, Some 0x2c18, None);
   (0x2c49, Ll, Some 0x2c19, None); (0x2c4a, Ll, Some 0x2c1a, None); (0x2c4b, Ll, Some 0x2c1b, None);
   (0x2c4c, Ll, Some 0x2c1c, None); (0x2c4d, Ll, Some 0x2c1d, None); (0x2c4e, Ll, Some 0x2c1e, None);
   (0x2c4f, Ll, Some 0x2c1f, None); (0x2c50, Ll, Some 0x2c20, None); (0x2c51, Ll, Some 0x2c21, None);
   (0x2c52, Ll, Some 0x2c22, None); (0x2c53, Ll, Some 0x2c23, None); (0x2c54, Ll, Some 0x2c24, None);
   (0x2c55, Ll, Some 0x2c25, None); (0x2c56, Ll, Some 0x2c26, None); (0x2c57, Ll, Some 0x2c27, None);
   (0x2c58, Ll, Some 0x2c28, None); (0x2c59, Ll, Some 0x2c29, None); (0x2c5a, Ll, Some 0x2c2a, None);
   (0x2c5b, Ll, Some 0x2c2b, None); (0x2c5c, Ll, Some 0x2c2c, None); (0x2c5d, Ll, Some 0x2c2d, None);
   (0x2c5e, Ll, Some 0x2c2e, None); (0x2c60, Lu, None, Some 0x2c61); (0x2c61, Ll, Some 0x2c60, None);
   (0x2c62, Lu, None, Some 0x26b); (0x2c63, Lu, None, Some 0x1d7d); (0x2c64, Lu, None, Some 0x27d);
   (0x2c65, Ll, Some 0x23a, None); (0x2c66, Ll, Some 0x23e, None); (0x2c67, Lu, None, Some 0x2c68);
   (0x2c68, Ll, Some 0x2c67, None); (0x2c69, Lu, None, Some 0x2c6a); (0x2c6a, Ll, Some 0x2c69, None);
   (0x2c6b, Lu, None, Some 0x2c6c); (0x2c6c, Ll, Some 0x2c6b, None); (0x2c6d, Lu, None, Some 0x251);
   (0x2c6e, Lu, None, Some 0x271); (0x2c6f, Lu, None, Some 0x250); (0x2c70, Lu, None, Some 0x252);
   (0x2c72, Lu, None, Some 0x2c73); (0x2c73, Ll, Some 0x2c72, None); (0x2c75, Lu, None, Some 0x2c76);
   (0x2c76, Ll, Some 0x2c75, None); (0x2c7e, Lu, None, Some 0x23f); (0x2c7f, Lu, None, Some 0x240);
   (0x2c80, Lu, None, Some 0x2c81); (0x2c81, Ll, Some 0x2c80, None); (0x2c82, Lu, None, Some 0x2c83);
   (0x2c83, Ll, Some 0x2c82, None); (0x2c84, Lu, None, Some 0x2c85); (0x2c85, Ll, Some 0x2c84, None);
   (0x2c86, Lu, None, Some 0x2c87); (0x2c87, Ll, Some 0x2c86, None); (0x2c88, Lu, None, Some 0x2c89);
   (0x2c89, Ll, Some 0x2c88, None); (0x2c8a, Lu, None, Some 0x2c8b); (0x2c8b, Ll, Some 0x2c8a, None);
   (0x2c8c, Lu, None, Some 0x2c8d); (0x2c8d, Ll, Some 0x2c8c, None); (0x2c8e, Lu, None, Some 0x2c8f);
   (0x2c8f, Ll, Some 0x2c8e, None); (0x2c90, Lu, None, Some 0x2c91); (0x2c91, Ll, Some 0x2c90, None);
   (0x2c92, Lu, None, Some 0x2c93); (0x2c93, Ll, Some 0x2c92, None); (0x2c94, Lu, None, Some 0x2c95);
   (0x2c95, Ll, Some 0x2c94, None); (0x2c96, Lu, None, Some 0x2c97); (0x2c97, Ll, Some 0x2c96, None);
   (0x2c98, Lu, None, Some 0x2c99); (0x2c99, Ll, Some 0x2c98, None); (0x2c9a, Lu, None, Some 0x2c9b);
   (0x2c9b, Ll, Some 0x2c9a, None); (0x2c9c, Lu, None, Some 0x2c9d); (0x2c9d, Ll, Some 0x2c9c, None);
   (0x2c9e, Lu, None, Some 0x2c9f); (0x2c9f, Ll, Some 0x2c9e, None); (0x2ca0, Lu, None, Some 0x2ca1);
   (0x2ca1, Ll, Some 0x2ca0, None); (0x2ca2, Lu, None, Some 0x2ca3); (0x2ca3, Ll, Some 0x2ca2, None);
   (0x2ca4, Lu, None, Some 0x2ca5); (0x2ca5, Ll, Some 0x2ca4, None); (0x2ca6, Lu, None, Some 0x2ca7);
   (0x2ca7, Ll, Some 0x2ca6, None); (0x2ca8, Lu, None, Some 0x2ca9); (0x2ca9, Ll, Some 0x2ca8, None);
   (0x2caa, Lu, None, Some 0x2cab); (0x2cab, Ll, Some 0x2caa, None); (0x2cac, Lu, None, Some 0x2cad);
   (0x2cad, Ll, Some 0x2cac, None); (0x2cae, Lu, None, Some 0x2caf); (0x2caf, Ll, Some 0x2cae, None);
   (0x2cb0, Lu, None, Some 0x2cb1); (0x2cb1, Ll, Some 0x2cb0, None); (0x2cb2, Lu, None, Some 0x2cb3);
   (0x2cb3, Ll, Some 0x2cb2, None); (0x2cb4, Lu, None, Some 0x2cb5); (0x2cb5, Ll, Some 0x2cb4, None);
   (0x2cb6, Lu, None, Some 0x2cb7); (0x2cb7, Ll, Some 0x2cb6, None); (0x2cb8, Lu, None, Some 0x2cb9);
   (0x2cb9, Ll, Some 0x2cb8, None); (0x2cba, Lu, None, Some 0x2cbb); (0x2cbb, Ll, Some 0x2cba, None);
   (0x2cbc, Lu, None, Some 0x2cbd); (0x2cbd, Ll, Some 0x2cbc, None); (0x2cbe, Lu, None, Some 0x2cbf);
   (0x2cbf, Ll, Some 0x2cbe, None); (0x2cc0, Lu, None, Some 0x2cc1); (0x2cc1, Ll, Some 0x2cc0, None);
   (0x2cc2, Lu, None, Some 0x2cc3); (0x2cc3, Ll, Some 0x2cc2, None); (0x2cc4, Lu, None, Some 0x2cc5);
   (0x2cc5, Ll, Some 0x2cc4, None); (0x2cc6, Lu, None, Some 0x2cc7); (0x2cc7, Ll, Some 0x2cc6, None);
   (0x2cc8, Lu, None, Some 0x2cc9); (0x2cc9, Ll, Some 0x2cc8, None); (0x2cca, Lu, None, Some 0x2ccb);
   (0x2ccb, Ll, Some 0x2cca, None); (0x2ccc, Lu, None, Some 0x2ccd); (0x2ccd, Ll, Some 0x2ccc, None);
   (0x2cce, Lu, None, Some 0x2ccf); (0x2ccf, Ll, Some 0x2cce, None); (0x2cd0, Lu, None, Some 0x2cd1);
   (0x2cd1, Ll, Some 0x2cd0, None); (0x2cd2, Lu, None, Some 0x2cd3); (0x2cd3, Ll, Some 0x2cd2, None);
   (0x2cd4, Lu, None, Some 0x2cd5); (0x2cd5, Ll, Some 0x2cd4, None); (0x2cd6, Lu, None, Some 0x2cd7);
   (0x2cd7, Ll, Some 0x2cd6, None); (0x2cd8, Lu, None, Some 0x2cd9); (0x2cd9, Ll, Some 0x2cd8, None);
   (0x2cda, Lu, None, Some 0x2cdb); (0x2cdb, Ll, Some 0x2cda, None); (0x2cdc, Lu, None, Some 0x2cdd);
   (0x2cdd, Ll, Some 0x2cdc, None); (0x2cde, Lu, None, Some 0x2cdf); (0x2cdf, Ll, Some 0x2cde, None);
   (0x2ce0, Lu, None, Some 0x2ce1); (0x2ce1, Ll, Some 0x2ce0, None); (0x2ce2, Lu, None, Some 0x2ce3);
   (0x2ce3, Ll, Some 0x2ce2, None); (0x2ceb, Lu, None, Some 0x2cec); (0x2cec, Ll, Some 0x2ceb, None);
   (0x2ced, Lu, None, Some 0x2cee); (0x2cee, Ll, Some 0x2ced, None); (0x2cf2, Lu, None, Some 0x2cf3);
   (0x2cf3, Ll, Some 0x2cf2, None); (0x2d00, Ll, Some 0x10a0, None); (0x2d01, Ll, Some 0x10a1, None);
   (0x2d02, Ll, Some 0x10a2, None); (0x2d03, Ll, Some 0x10a3, None); (0x2d04, Ll, Some 0x10a4, None);
   (0x2d05, Ll, Some 0x10a5, None); (0x2d06, Ll, Some 0x10a6, None); (0x2d07, Ll, Some 0x10a7, None);
   (0x2d08, Ll, Some 0x10a8, None); (0x2d09, Ll, Some 0x10a9, None); (0x2d0a, Ll, Some 0x10aa, None);
   (0x2d0b, Ll, Some 0x10ab, None); (0x2d0c, Ll, Some 0x10ac, None); (0x2d0d, Ll, Some 0x10ad, None);
   (0x2d0e, Ll, Some 0x10ae, None); (0x2d0f, Ll, Some 0x10af, None); (0x2d10, Ll, Some 0x10b0, None);
   (0x2d11, Ll, Some 0x10b1, None); (0x2d12, Ll, Some 0x10b2, None); (0x2d13, Ll, Some 0x10b3, None);
   (0x2d14, Ll, Some 0x10b4, None); (0x2d15, Ll, Some 0x10b5, None); (0x2d16, Ll, Some 0x10b6, None);
   (0x2d17, Ll, Some 0x10b7, None); (0x2d18, Ll, Some 0x10b8, None); (0x2d19, Ll, Some 0x10b9, None);
   (0x2d1a, Ll, Some 0x10ba, None); (0x2d1b, Ll, Some 0x10bb, None); (0x2d1c, Ll, Some 0x10bc, None);
   (0x2d1d, Ll, Some 0x10bd, None); (0x2d1e, Ll, Some 0x10be, None); (0x2d1f, Ll, Some 0x10bf, None);
   (0x2d20, Ll, Some 0x10c0, None); (0x2d21, Ll, Some 0x10c1, None); (0x2d22, Ll, Some 0x10c2, None);
   (0x2d23, Ll, Some 0x10c3, None); (0x2d24, Ll, Some 0x10c4, None); (0x2d25, Ll, Some 0x10c5, None);
   (0x2d27, Ll, Some 0x10c7, None); (0x2d2d, Ll, Some 0x10cd, None); (0xa640, Lu, None, Some 0xa641);
   (0xa641, Ll, Some 0xa640, None); (0xa642, Lu, None, Some 0xa643); (0xa643, Ll, Some 0xa642, None);
   (0xa644, Lu, None, Some 0xa645); (0xa645, Ll, Some 0xa644, None); (0xa646, Lu, None, Some 0xa647);
   (0xa647, Ll, Some 0xa646, None); (0xa648, Lu, None, Some 0xa649); (0xa649, Ll, Some 0xa648, None);
   (0xa64a, Lu, None, Some 0xa64b); (0xa64b, Ll, Some 0xa64a, None); (0xa64c, Lu, None, Some 0xa64d);
   (0xa64d, Ll, Some 0xa64c, None); (0xa64e, Lu, None, Some 0xa64f); (0xa64f, Ll, Some 0xa64e, None);
   (0xa650, Lu, None, Some 0xa651); (0xa651, Ll, Some 0xa650, None); (0xa652, Lu, None, Some 0xa653);
   (0xa653, Ll, Some 0xa652, None); (0xa654, Lu, None, Some 0xa655); (0xa655, Ll, Some 0xa654, None);
   (0xa656, Lu, None, Some 0xa657); (0xa657, Ll, Some 0xa656, None); (0xa658, Lu, None, Some 0xa659);
   (0xa659, Ll, Some 0xa658, None); (0xa65a, Lu, None, Some 0xa65b); (0xa65b, Ll, Some 0xa65a, None);
   (0xa65c, Lu, None, Some 0xa65d); (0xa65d, Ll, Some 0xa65c, None); (0xa65e, Lu, None, Some 0xa65f);
   (0xa65f, Ll, Some 0xa65e, None); (0xa660, Lu, None, Some 0xa661); (0xa661, Ll, Some 0xa660, None);
   (0xa662, Lu, None, Some 0xa663); (0xa663, Ll, Some 0xa662, None); (0xa664, Lu, None, Some 0xa665);
   (0xa665, Ll, Some 0xa664, None); (0xa666, Lu, None, Some 0xa667); (0xa667, Ll, Some 0xa666, None);
   (0xa668, Lu, None, Some 0xa669); (0xa669, Ll, Some 0xa668, None); (0xa66a, Lu, None, Some 0xa66b);
   (0xa66b, Ll, Some 0xa66a, None); (0xa66c, Lu, None, Some 0xa66d); (0xa66d, Ll, Some 0xa66c, None);
   (0xa680, Lu, None, Some 0xa681); (0xa681, Ll, Some 0xa680, None); (0xa682, Lu, None, Some 0xa683);
   (0xa683, Ll, Some 0xa682, None); (0xa684, Lu, None, Some 0xa685); (0xa685, Ll, Some 0xa684, None);
   (0xa686, Lu, None, Some 0xa687); (0xa687, Ll, Some 0xa686, None); (0xa688, Lu, None, Some 0xa689);
   (0xa689, Ll, Some 0xa688, None); (0xa68a, Lu, None, Some 0xa68b); (0xa68b, Ll, Some 0xa68a, None);
   (0xa68c, Lu, None, Some 0xa68d); (0xa68d, Ll, Some 0xa68c, None); (0xa68e, Lu, None, Some 0xa68f);
   (0xa68f, Ll, Some 0xa68e, None); (0xa690, Lu, None, Some 0xa691); (0xa691, Ll, Some 0xa690, None);
   (0xa692, Lu, None, Some 0xa693); (0xa693, Ll, Some 0xa692, None); (0xa694, Lu, None, Some 0xa695);
   (0xa695, Ll, Some 0xa694, None); (0xa696, Lu, None, Some 0xa697); (0xa697, Ll, Some 0xa696, None);
   (0xa698, Lu, None, Some 0xa699); (0xa699, Ll, Some 0xa698, None); (0xa69a, Lu, None, Some 0xa69b);
   (0xa69b, Ll, Some 0xa69a, None); (0xa722, Lu, None, Some 0xa723); (0xa723, Ll, Some 0xa722, None);
   (0xa724, Lu, None, Some 0xa725); (0xa725, Ll, Some 0xa724, None); (0xa726, Lu, None, Some 0xa727);
   (0xa727, Ll, Some 0xa726, None); (0xa728, Lu, None, Some 0xa729); (0xa729, Ll, Some 0xa728, None);
   (0xa72a, Lu, None, Some 0xa72b); (0xa72b, Ll, Some 0xa72a, None); (0xa72c, Lu, None, Some 0xa72d);
   (0xa72d, Ll, Some 0xa72c, None); (0xa72e, Lu, None, Some 0xa72f); (0xa72f, Ll, Some 0xa72e, None);
   (0xa732, Lu, None, Some 0xa733); (0xa733, Ll, Some 0xa732, None); (0xa734, Lu, None, Some 0xa735);
   (0xa735, Ll, Some 0xa734, None); (0xa736, Lu, None, Some 0xa737); (0xa737, Ll, Some 0xa736, None);
   (0xa738, Lu, None, Some 0xa739); (0xa739, Ll, Some 0xa738, None); (0xa73a, Lu, None, Some 0xa73b);
   (0xa73b, Ll, Some 0xa73a, None); (0xa73c, Lu, None, Some 0xa73d); (0xa73d, Ll, Some 0xa73c, None);
   (0xa73e, Lu, None, Some 0xa73f); (0xa73f, Ll, Some 0xa73e, None); (0xa740, Lu, None, Some 0xa741);
   (0xa741, Ll, Some 0xa740, None); (0xa742, Lu, None, Some 0xa743); (0xa743, Ll, Some 0xa742, None);
   (0xa744, Lu, None, Some 0xa745); (0xa745, Ll, Some 0xa744, None); (0xa746, Lu, None, Some 0xa747);
   (0xa747, Ll, Some 0xa746, None); (0xa748, Lu, None, Some 0xa749); (0xa749, Ll, Some 0xa748, None);
   (0xa74a, Lu, None, Some 0xa74b); (0xa74b, Ll, Some 0xa74a, None); (0xa74c, Lu, None, Some 0xa74d);
   (0xa74d, Ll, Some 0xa74c, None); (0xa74e, Lu, None, Some 0xa74f); (0xa74f, Ll, Some 0xa74e, None);
   (0xa750, Lu, None, Some 0xa751); (0xa751, Ll, Some 0xa750, None); (0xa752, Lu, None, Some 0xa753);
   (0xa753, Ll, Some 0xa752, None); (0xa754, Lu, None, Some 0xa755); (0xa755, Ll, Some 0xa754, None);
   (0xa756, Lu, None, Some 0xa757); (0xa757, Ll, Some 0xa756, None); (0xa758, Lu, None, Some 0xa759);
   (0xa759, Ll, Some 0xa758, None); (0xa75a, Lu, None, Some 0xa75b); (0xa75b, Ll, Some 0xa75a, None);
   (0xa75c, Lu, None, Some 0xa75d); (0xa75d, Ll, Some 0xa75c, None); (0xa75e, Lu, None, Some 0xa75f);
   (0xa75f, Ll, Some 0xa75e, None); (0xa760, Lu, None, Some 0xa761); (0xa761, Ll, Some 0xa760, None);
   (0xa762, Lu, None, Some 0xa763); (0xa763, Ll, Some 0xa762, None); (0xa764, Lu, None, Some 0xa765);
   (0xa765, Ll, Some 0xa764, None); (0xa766, Lu, None, Some 0xa767); (0xa767, Ll, Some 0xa766, None);
   (0xa768, Lu, None, Some 0xa769); (0xa769, Ll, Some 0xa768, None); (0xa76a, Lu, None, Some 0xa76b);
   (0xa76b, Ll, Some 0xa76a, None); (0xa76c, Lu, None, Some 0xa76d); (0xa76d, Ll, Some 0xa76c, None);
   (0xa76e, Lu, None, Some 0xa76f); (0xa76f, Ll, Some 0xa76e, None); (0xa779, Lu, None, Some 0xa77a);
   (0xa77a, Ll, Some 0xa779, None); (0xa77b, Lu, None, Some 0xa77c); (0xa77c, Ll, Some 0xa77b, None);
   (0xa77d, Lu, None, Some 0x1d79); (0xa77e, Lu, None, Some 0xa77f); (0xa77f, Ll, Some 0xa77e, None);
   (0xa780, Lu, None, Some 0xa781); (0xa781, Ll, Some 0xa780, None); (0xa782, Lu, None, Some 0xa783);
   (0xa783, Ll, Some 0xa782, None); (0xa784, Lu, None, Some 0xa785); (0xa785, Ll, Some 0xa784, None);
   (0xa786, Lu, None, Some 0xa787); (0xa787, Ll, Some 0xa786, None); (0xa78b, Lu, None, Some 0xa78c);
   (0xa78c, Ll, Some 0xa78b, None); (0xa78d, Lu, None, Some 0x265); (0xa790, Lu, None, Some 0xa791);
   (0xa791, Ll, Some 0xa790, None); (0xa792, Lu, None, Some 0xa793); (0xa793, Ll, Some 0xa792, None);
   (0xa794, Ll, Some 0xa7c4, None); (0xa796, Lu, None, Some 0xa797); (0xa797, Ll, Some 0xa796, None);
   (0xa798, Lu, None, Some 0xa799); (0xa799, Ll, Some 0xa798, None); (0xa79a, Lu, None, Some 0xa79b);
   (0xa79b, Ll, Some 0xa79a, None); (0xa79c, Lu, None, Some 0xa79d); (0xa79d, Ll, Some 0xa79c, None);
   (0xa79e, Lu, None, Some 0xa79f); (0xa79f, Ll, Some 0xa79e, None); (0xa7a0, Lu, None, Some 0xa7a1);
   (0xa7a1, Ll, Some 0xa7a0, None); (0xa7a2, Lu, None, Some 0xa7a3); (0xa7a3, Ll, Some 0xa7a2, None);
   (0xa7a4, Lu, None, Some 0xa7a5); (0xa7a5, Ll, Some 0xa7a4, None); (0xa7a6, Lu, None, Some 0xa7a7);
   (0xa7a7, Ll, Some 0xa7a6, None); (0xa7a8, Lu, None, Some 0xa7a9); (0xa7a9, Ll, Some 0xa7a8, None);
   (0xa7aa, Lu, None, Some 0x266); (0xa7ab, Lu, None, Some 0x25c); (0xa7ac, Lu, None, Some 0x261);
   (0xa7ad, Lu, None, Some 0x26c); (0xa7ae, Lu, None, Some 0x26a); (0xa7b0, Lu, None, Some 0x29e);
   (0xa7b1, Lu, None, Some 0x287); (0xa7b2, Lu, None, Some 0x29d); (0xa7b3, Lu, None, Some 0xab53);
   (0xa7b4, Lu, None, Some 0xa7b5); (0xa7b5, Ll, Some 0xa7b4, None); (0xa7b6, Lu, None, Some 0xa7b7);
   (0xa7b7, Ll, Some 0xa7b6, None); (0xa7b8, Lu, None, Some 0xa7b9); (0xa7b9, Ll, Some 0xa7b8, None);
   (0xa7ba, Lu, None, Some 0xa7bb); (0xa7bb, Ll, Some 0xa7ba, None); (0xa7bc, Lu, None, Some 0xa7bd);
   (0xa7bd, Ll, Some 0xa7bc, None); (0xa7be, Lu, None, Some 0xa7bf); (0xa7bf, Ll, Some 0xa7be, None);
   (0xa7c2, Lu, None, Some 0xa7c3); (0xa7c3, Ll, Some 0xa7c2, None); (0xa7c4, Lu, None, Some 0xa794);
   (0xa7c5, Lu, None, Some 0x282); (0xa7c6, Lu, None, Some 0x1d8e); (0xa7c7, Lu, None, Some 0xa7c8);
   (0xa7c8, Ll, Some 0xa7c7, None); (0xa7c9, Lu, None, Some 0xa7ca); (0xa7ca, Ll, Some 0xa7c9, None);
   (0xa7f5, Lu, None, Some 0xa7f6); (0xa7f6, Ll, Some 0xa7f5, None); (0xab53, Ll, Some 0xa7b3, None);
   (0xab70, Ll, Some 0x13a0, None); (0xab71, Ll, Some 0x13a1, None); (0xab72, Ll, Some 0x13a2, None);
   (0xab73, Ll, Some 0x13a3, None); (0xab74, Ll, Some 0x13a4, None); (0xab75, Ll, Some 0x13a5, None);
   (0xab76, Ll, Some 0x13a6, None); (0xab77, Ll, Some 0x13a7, None); (0xab78, Ll, Some 0x13a8, None);
   (0xab79, Ll, Some 0x13a9, None); (0xab7a, Ll, Some 0x13aa, None); (0xab7b, Ll, Some 0x13ab, None);
   (0xab7c, Ll, Some 0x13ac, None); (0xab7d, Ll, Some 0x13ad, None); (0xab7e, Ll, Some 0x13ae, None);
   (0xab7f, Ll, Some 0x13af, None); (0xab80, Ll, Some 0x13b0, None); (0xab81, Ll, Some 0x13b1, None);
   (0xab82, Ll, Some 0x13b2, None); (0xab83, Ll, Some 0x13b3, None); (0xab84, Ll, Some 0x13b4, None);
   (0xab85, Ll, Some 0x13b5, None); (0xab86, Ll, Some 0x13b6, None); (0xab87, Ll, Some 0x13b7, None);
   (0xab88, Ll, Some 0x13b8, None); (0xab89, Ll, Some 0x13b9, None); (0xab8a, Ll, Some 0x13ba, None);
   (0xab8b, Ll, Some 0x13bb, None); (0xab8c, Ll, Some 0x13bc, None); (0xab8d, Ll, Some 0x13bd, None);
   (0xab8e, Ll, Some 0x13be, None); (0xab8f, Ll, Some 0x13bf, None); (0xab90, Ll, Some 0x13c0, None);
   (0xab91, Ll, Some 0x13c1, None); (0xab92, Ll, Some 0x13c2, None); (0xab93, Ll, Some 0x13c3, None);
   (0xab94, Ll, Some 0x13c4, None); (0xab95, Ll, Some 0x13c5, None); (0xab96, Ll, Some 0x13c6, None);
   (0xab97, Ll, Some 0x13c7, None); (0xab98, Ll, Some 0x13c8, None); (0xab99, Ll, Some 0x13c9, None);
   (0xab9a, Ll, Some 0x13ca, None); (0xab9b, Ll, Some 0x13cb, None); (0xab9c, Ll, Some 0x13cc, None);
   (0xab9d, Ll, Some 0x13cd, None); (0xab9e, Ll, Some 0x13ce, None); (0xab9f, Ll, Some 0x13cf, None);
   (0xaba0, Ll, Some 0x13d0, None); (0xaba1, Ll, Some 0x13d1, None); (0xaba2, Ll, Some 0x13d2, None);
   (0xaba3, Ll, Some 0x13d3, None); (0xaba4, Ll, Some 0x13d4, None); (0xaba5, Ll, Some 0x13d5, None);
   (0xaba6, Ll, Some 0x13d6, None); (0xaba7, Ll, Some 0x13d7, None); (0xaba8, Ll, Some 0x13d8, None);
   (0xaba9, Ll, Some 0x13d9, None); (0xabaa, Ll, Some 0x13da, None); (0xabab, Ll, Some 0x13db, None);
   (0xabac, Ll, Some 0x13dc, None); (0xabad, Ll, Some 0x13dd, None); (0xabae, Ll, Some 0x13de, None);
   (0xabaf, Ll, Some 0x13df, None); (0xabb0, Ll, Some 0x13e0, None); (0xabb1, Ll, Some 0x13e1, None);
   (0xabb2, Ll, Some 0x13e2, None); (0xabb3, Ll, Some 0x13e3, None); (0xabb4, Ll, Some 0x13e4, None);
   (0xabb5, Ll, Some 0x13e5, None); (0xabb6, Ll, Some 0x13e6, None); (0xabb7, Ll, Some 0x13e7, None);
   (0xabb8, Ll, Some 0x13e8, None); (0xabb9, Ll, Some 0x13e9, None); (0xabba, Ll, Some 0x13ea, None);
   (0xabbb, Ll, Some 0x13eb, None); (0xabbc, Ll, Some 0x13ec, None); (0xabbd, Ll, Some 0x13ed, None);
   (0xabbe, Ll, Some 0x13ee, None); (0xabbf, Ll, Some 0x13ef, None); (0xff21, Lu, None, Some 0xff41);
   (0xff22, Lu, None, Some 0xff42); (0xff23, Lu, None, Some 0xff43); (0xff24, Lu, None, Some 0xff44);
   (0xff25, Lu, None, Some 0xff45); (0xff26, Lu, None, Some 0xff46); (0xff27, Lu, None, Some 0xff47);
   (0xff28, Lu, None, Some 0xff48); (0xff29, Lu, None, Some 0xff49); (0xff2a, Lu, None, Some 0xff4a);
   (0xff2b, Lu, None, Some 0xff4b); (0xff2c, Lu, None, Some 0xff4c); (0xff2d, Lu, None, Some 0xff4d);
   (0xff2e, Lu, None, Some 0xff4e); (0xff2f, Lu, None, Some 0xff4f); (0xff30, Lu, None, Some 0xff50);
   (0xff31, Lu, None, Some 0xff51); (0xff32, Lu, None, Some 0xff52); (0xff33, Lu, None, Some 0xff53);
   (0xff34, Lu, None, Some 0xff54); (0xff35, Lu, None, Some 0xff55); (0xff36, Lu, None, Some 0xff56);
   (0xff37, Lu, None, Some 0xff57); (0xff38, Lu, None, Some 0xff58); (0xff39, Lu, None, Some 0xff59);
   (0xff3a, Lu, None, Some 0xff5a); (0xff41, Ll, Some 0xff21, None); (0xff42, Ll, Some 0xff22, None);
   (0xff43, Ll, Some 0xff23, None); (0xff44, Ll, Some 0xff24, None); (0xff45, Ll, Some 0xff25, None);
   (0xff46, Ll, Some 0xff26, None); (0xff47, Ll, Some 0xff27, None); (0xff48, Ll, Some 0xff28, None);
   (0xff49, Ll, Some 0xff29, None); (0xff4a, Ll, Some 0xff2a, None); (0xff4b, Ll, Some 0xff2b, None);
   (0xff4c, Ll, Some 0xff2c, None); (0xff4d, Ll, Some 0xff2d, None); (0xff4e, Ll, Some 0xff2e, None);
   (0xff4f, Ll, Some 0xff2f, None); (0xff50, Ll, Some 0xff30, None); (0xff51, Ll, Some 0xff31, None);
   (0xff52, Ll, Some 0xff32, None); (0xff53, Ll, Some 0xff33, None); (0xff54, Ll, Some 0xff34, None);
   (0xff55, Ll, Some 0xff35, None); (0xff56, Ll, Some 0xff36, None); (0xff57, Ll, Some 0xff37, None);
   (0xff58, Ll, Some 0xff38, None); (0xff59, Ll, Some 0xff39, None); (0xff5a, Ll, Some 0xff3a, None);
   (0x10400, Lu, None, Some 0x10428); (0x10401, Lu, None, Some 0x10429); (0x10402, Lu, None, Some 0x1042a);
   (0x10403, Lu, None, Some 0x1042b); (0x10404, Lu, None, Some 0x1042c); (0x10405, Lu, None, Some 0x1042d);
   (0x10406, Lu, None, Some 0x1042e); (0x10407, Lu, None, Some 0x1042f); (0x10408, Lu, None, Some 0x10430);
   (0x10409, Lu, None, Some 0x10431); (0x1040a, Lu, None, Some 0x10432); (0x1040b, Lu, None, Some 0x10433);
   (0x1040c, Lu, None, Some 0x10434); (0x1040d, Lu, None, Some 0x10435); (0x1040e, Lu, None, Some 0x10436);
   (0x1040f, Lu, None, Some 0x10437); (0x10410, Lu, None, Some 0x10438); (0x10411, Lu, None, Some 0x10439);
   (0x10412, Lu, None, Some 0x1043a); (0x10413, Lu, None, Some 0x1043b); (0x10414, Lu, None, Some 0x1043c);
   (0x10415, Lu, None, Some 0x1043d); (0x10416, Lu, None, Some 0x1043e); (0x10417, Lu, None, Some 0x1043f);
   (0x10418, Lu, None, Some 0x10440); (0x10419, Lu, None, Some 0x10441); (0x1041a, Lu, None, Some 0x10442);
   (0x1041b, Lu, None, Some 0x10443); (0x1041c, Lu, None, Some 0x10444); (0x1041d, Lu, None, Some 0x10445);
   (0x1041e, Lu, None, Some 0x10446); (0x1041f, Lu, None, Some 0x10447); (0x10420, Lu, None, Some 0x10448);
   (0x10421, Lu, None, Some 0x10449); (0x10422, Lu, None, Some 0x1044a); (0x10423, Lu, None, Some 0x1044b);
   (0x10424, Lu, None, Some 0x1044c); (0x10425, Lu, None, Some 0x1044d); (0x10426, Lu, None, Some 0x1044e);
   (0x10427, Lu, None, Some 0x1044f); (0x10428, Ll, Some 0x10400, None); (0x10429, Ll, Some 0x10401, None);
   (0x1042a, Ll, Some 0x10402, None); (0x1042b, Ll, Some 0x10403, None); (0x1042c, Ll, Some 0x10404, None);
   (0x1042d, Ll, Some 0x10405, None); (0x1042e, Ll, Some 0x10406, None); (0x1042f, Ll, Some 0x10407, None);
   (0x10430, Ll, Some 0x10408, None); (0x10431, Ll, Some 0x10409, None); (0x10432, Ll, Some 0x1040a, None);
   (0x10433, Ll, Some 0x1040b, None); (0x10434, Ll, Some 0x1040c, None); (0x10435, Ll, Some 0x1040d, None);
   (0x10436, Ll, Some 0x1040e, None); (0x10437, Ll, Some 0x1040f, None); (0x10438, Ll, Some 0x10410, None);
   (0x10439, Ll, Some 0x10411, None); (0x1043a, Ll, Some 0x10412, None); (0x1043b, Ll, Some 0x10413, None);
   (0x1043c, Ll, Some 0x10414, None); (0x1043d, Ll, Some 0x10415, None); (0x1043e, Ll, Some 0x10416, None);
   (0x1043f, Ll, Some 0x10417, None); (0x10440, Ll, Some 0x10418, None); (0x10441, Ll, Some 0x10419, None);
   (0x10442, Ll, Some 0x1041a, None); (0x10443, Ll, Some 0x1041b, None); (0x10444, Ll, Some 0x1041c, None);
   (0x10445, Ll, Some 0x1041d, None); (0x10446, Ll, Some 0x1041e, None); (0x10447, Ll, Some 0x1041f, None);
   (0x10448, Ll, Some 0x10420, None); (0x10449, Ll, Some 0x10421, None); (0x1044a, Ll, Some 0x10422, None);
   (0x1044b, Ll, Some 0x10423, None); (0x1044c, Ll, Some 0x10424, None); (0x1044d, Ll, Some 0x10425, None);
   (0x1044e, Ll, Some 0x10426, None); (0x1044f, Ll, Some 0x10427, None); (0x104b0, Lu, None, Some 0x104d8);
   (0x104b1, Lu, None, Some 0x104d9); (0x104b2, Lu, None, Some 0x104da); (0x104b3, Lu, None, Some 0x104db);
   (0x104b4, Lu, None, Some 0x104dc); (0x104b5, Lu, None, Some 0x104dd); (0x104b6, Lu, None, Some 0x104de);
   (0x104b7, Lu, None, Some 0x104df); (0x104b8, Lu, None, Some 0x104e0); (0x104b9, Lu, None, Some 0x104e1);
   (0x104ba, Lu, None, Some 0x104e2); (0x104bb, Lu, None, Some 0x104e3); (0x104bc, Lu, None, Some 0x104e4);
   (0x104bd, Lu, None, Some 0x104e5); (0x104be, Lu, None, Some 0x104e6); (0x104bf, Lu, None, Some 0x104e7);
   (0x104c0, Lu, None, Some 0x104e8); (0x104c1, Lu, None, Some 0x104e9); (0x104c2, Lu, None, Some 0x104ea);
   (0x104c3, Lu, None, Some 0x104eb); (0x104c4, Lu, None, Some 0x104ec); (0x104c5, Lu, None, Some 0x104ed);
   (0x104c6, Lu, None, Some 0x104ee); (0x104c7, Lu, None, Some 0x104ef); (0x104c8, Lu, None, Some 0x104f0);
   (0x104c9, Lu, None, Some 0x104f1); (0x104ca, Lu, None, Some 0x104f2); (0x104cb, Lu, None, Some 0x104f3);
   (0x104cc, Lu, None, Some 0x104f4); (0x104cd, Lu, None, Some 0x104f5); (0x104ce, Lu, None, Some 0x104f6);
   (0x104cf, Lu, None, Some 0x104f7); (0x104d0, Lu, None, Some 0x104f8); (0x104d1, Lu, None, Some 0x104f9);
   (0x104d2, Lu, None, Some 0x104fa); (0x104d3, Lu, None, Some 0x104fb); (0x104d8, Ll, Some 0x104b0, None);
   (0x104d9, Ll, Some 0x104b1, None); (0x104da, Ll, Some 0x104b2, None); (0x104db, Ll, Some 0x104b3, None);
   (0x104dc, Ll, Some 0x104b4, None); (0x104dd, Ll, Some 0x104b5, None); (0x104de, Ll, Some 0x104b6, None);
   (0x104df, Ll, Some 0x104b7, None); (0x104e0, Ll, Some 0x104b8, None); (0x104e1, Ll, Some 0x104b9, None);
   (0x104e2, Ll, Some 0x104ba, None); (0x104e3, Ll, Some 0x104bb, None); (0x104e4, Ll, Some 0x104bc, None);
   (0x104e5, Ll, Some 0x104bd, None); (0x104e6, Ll, Some 0x104be, None); (0x104e7, Ll, Some 0x104bf, None);
   (0x104e8, Ll, Some 0x104c0, None); (0x104e9, Ll, Some 0x104c1, None); (0x104ea, Ll, Some 0x104c2, None);
   (0x104eb, Ll, Some 0x104c3, None); (0x104ec, Ll, Some 0x104c4, None); (0x104ed, Ll, Some 0x104c5, None);
   (0x104ee, Ll, Some 0x104c6, None); (0x104ef, Ll, Some 0x104c7, None); (0x104f0, Ll, Some 0x104c8, None);
   (0x104f1, Ll, Some 0x104c9, None); (0x104f2, Ll, Some 0x104ca, None); (0x104f3, Ll, Some 0x104cb, None);
   (0x104f4, Ll, Some 0x104cc, None); (0x104f5, Ll, Some 0x104cd, None); (0x104f6, Ll, Some 0x104ce, None);
   (0x104f7, Ll, Some 0x104cf, None); (0x104f8, Ll, Some 0x104d0, None); (0x104f9, Ll, Some 0x104d1, None);
   (0x104fa, Ll, Some 0x104d2, None); (0x104fb, Ll, Some 0x104d3, None); (0x10c80, Lu, None, Some 0x10cc0);
   (0x10c81, Lu, None, Some 0x10cc1); (0x10c82, Lu, None, Some 0x10cc2); (0x10c83, Lu, None, Some 0x10cc3);
   (0x10c84, Lu, None, Some 0x10cc4); (0x10c85, Lu, None, Some 0x10cc5); (0x10c86, Lu, None, Some 0x10cc6);
   (0x10c87, Lu, None, Some 0x10cc7); (0x10c88, Lu, None, Some 0x10cc8); (0x10c89, Lu, None, Some 0x10cc9);
   (0x10c8a, Lu, None, Some 0x10cca); (0x10c8b, Lu, None, Some 0x10ccb); (0x10c8c, Lu, None, Some 0x10ccc);
   (0x10c8d, Lu, None, Some 0x10ccd); (0x10c8e, Lu, None, Some 0x10cce); (0x10c8f, Lu, None, Some 0x10ccf);
   (0x10c90, Lu, None, Some 0x10cd0); (0x10c91, Lu, None, Some 0x10cd1); (0x10c92, Lu, None, Some 0x10cd2);
   (0x10c93, Lu, None, Some 0x10cd3); (0x10c94, Lu, None, Some 0x10cd4); (0x10c95, Lu, None, Some 0x10cd5);
   (0x10c96, Lu, None, Some 0x10cd6); (0x10c97, Lu, None, Some 0x10cd7); (0x10c98, Lu, None, Some 0x10cd8);
   (0x10c99, Lu, None, Some 0x10cd9); (0x10c9a, Lu, None, Some 0x10cda); (0x10c9b, Lu, None, Some 0x10cdb);
   (0x10c9c, Lu, None, Some 0x10cdc); (0x10c9d, Lu, None, Some 0x10cdd); (0x10c9e, Lu, None, Some 0x10cde);
   (0x10c9f, Lu, None, Some 0x10cdf); (0x10ca0, Lu, None, Some 0x10ce0); (0x10ca1, Lu, None, Some 0x10ce1);
   (0x10ca2, Lu, None, Some 0x10ce2); (0x10ca3, Lu, None, Some 0x10ce3); (0x10ca4, Lu, None, Some 0x10ce4);
   (0x10ca5, Lu, None, Some 0x10ce5); (0x10ca6, Lu, None, Some 0x10ce6); (0x10ca7, Lu, None, Some 0x10ce7);
   (0x10ca8, Lu, None, Some 0x10ce8); (0x10ca9, Lu, None, Some 0x10ce9); (0x10caa, Lu, None, Some 0x10cea);
   (0x10cab, Lu, None, Some 0x10ceb); (0x10cac, Lu, None, Some 0x10cec); (0x10cad, Lu, None, Some 0x10ced);
   (0x10cae, Lu, None, Some 0x10cee); (0x10caf, Lu, None, Some 0x10cef); (0x10cb0, Lu, None, Some 0x10cf0);
   (0x10cb1, Lu, None, Some 0x10cf1); (0x10cb2, Lu, None, Some 0x10cf2); (0x10cc0, Ll, Some 0x10c80, None);
   (0x10cc1, Ll, Some 0x10c81, None); (0x10cc2, Ll, Some 0x10c82, None); (0x10cc3, Ll, Some 0x10c83, None);
   (0x10cc4, Ll, Some 0x10c84, None); (0x10cc5, Ll, Some 0x10c85, None); (0x10cc6, Ll, Some 0x10c86, None);
   (0x10cc7, Ll, Some 0x10c87, None); (0x10cc8, Ll, Some 0x10c88, None); (0x10cc9, Ll, Some 0x10c89, None);
   (0x10cca, Ll, Some 0x10c8a, None); (0x10ccb, Ll, Some 0x10c8b, None); (0x10ccc, Ll, Some 0x10c8c, None);
   (0x10ccd, Ll, Some 0x10c8d, None); (0x10cce, Ll, Some 0x10c8e, None); (0x10ccf, Ll, Some 0x10c8f, None);
   (0x10cd0, Ll, Some 0x10c90, None); (0x10cd1, Ll, Some 0x10c91, None); (0x10cd2, Ll, Some 0x10c92, None);
   (0x10cd3, Ll, Some 0x10c93, None); (0x10cd4, Ll, Some 0x10c94, None); (0x10cd5, Ll, Some 0x10c95, None);
   (0x10cd6, Ll, Some 0x10c96, None); (0x10cd7, Ll, Some 0x10c97, None); (0x10cd8, Ll, Some 0x10c98, None);
   (0x10cd9, Ll, Some 0x10c99, None); (0x10cda, Ll, Some 0x10c9a, None); (0x10cdb, Ll, Some 0x10c9b, None);
   (0x10cdc, Ll, Some 0x10c9c, None); (0x10cdd, Ll, Some 0x10c9d, None); (0x10cde, Ll, Some 0x10c9e, None);
   (0x10cdf, Ll, Some 0x10c9f, None); (0x10ce0, Ll, Some 0x10ca0, None); (0x10ce1, Ll, Some 0x10ca1, None);
   (0x10ce2, Ll, Some 0x10ca2, None); (0x10ce3, Ll, Some 0x10ca3, None); (0x10ce4, Ll, Some 0x10ca4, None);
   (0x10ce5, Ll, Some 0x10ca5, None); (0x10ce6, Ll, Some 0x10ca6, None); (0x10ce7, Ll, Some 0x10ca7, None);
   (0x10ce8, Ll, Some 0x10ca8, None); (0x10ce9, Ll, Some 0x10ca9, None); (0x10cea, Ll, Some 0x10caa, None);
   (0x10ceb, Ll, Some 0x10cab, None); (0x10cec, Ll, Some 0x10cac, None); (0x10ced, Ll, Some 0x10cad, None);
   (0x10cee, Ll, Some 0x10cae, None); (0x10cef, Ll, Some 0x10caf, None); (0x10cf0, Ll, Some 0x10cb0, None);
   (0x10cf1, Ll, Some 0x10cb1, None); (0x10cf2, Ll, Some 0x10cb2, None); (0x118a0, Lu, None, Some 0x118c0);
   (0x118a1, Lu, None, Some 0x118c1); (0x118a2, Lu, None, Some 0x118c2); (0x118a3, Lu, None, Some 0x118c3);
   (0x118a4, Lu, None, Some 0x118c4); (0x118a5, Lu, None, Some 0x118c5); (0x118a6, Lu, None, Some 0x118c6);
   (0x118a7, Lu, None, Some 0x118c7); (0x118a8, Lu, None, Some 0x118c8); (0x118a9, Lu, None, Some 0x118c9);
   (0x118aa, Lu, None, Some 0x118ca); (0x118ab, Lu, None, Some 0x118cb); (0x118ac, Lu, None, Some 0x118cc);
   (0x118ad, Lu, None, Some 0x118cd); (0x118ae, Lu, None, Some 0x118ce); (0x118af, Lu, None, Some 0x118cf);
   (0x118b0, Lu, None, Some 0x118d0); (0x118b1, Lu, None, Some 0x118d1); (0x118b2, Lu, None, Some 0x118d2);
   (0x118b3, Lu, None, Some 0x118d3); (0x118b4, Lu, None, Some 0x118d4); (0x118b5, Lu, None, Some 0x118d5);
   (0x118b6, Lu, None, Some 0x118d6); (0x118b7, Lu, None, Some 0x118d7); (0x118b8, Lu, None, Some 0x118d8);
   (0x118b9, Lu, None, Some 0x118d9); (0x118ba, Lu, None, Some 0x118da); (0x118bb, Lu, None, Some 0x118db);
   (0x118bc, Lu, None, Some 0x118dc); (0x118bd, Lu, None, Some 0x118dd); (0x118be, Lu, None, Some 0x118de);
   (0x118bf, Lu, None, Some 0x118df); (0x118c0, Ll, Some 0x118a0, None); (0x118c1, Ll, Some 0x118a1, None);
   (0x118c2, Ll, Some 0x118a2, None); (0x118c3, Ll, Some 0x118a3, None); (0x118c4, Ll, Some 0x118a4, None);
   (0x118c5, Ll, Some 0x118a5, None); (0x118c6, Ll, Some 0x118a6, None); (0x118c7, Ll, Some 0x118a7, None);
   (0x118c8, Ll, Some 0x118a8, None); (0x118c9, Ll, Some 0x118a9, None); (0x118ca, Ll, Some 0x118aa, None);
   (0x118cb, Ll, Some 0x118ab, None); (0x118cc, Ll, Some 0x118ac, None); (0x118cd, Ll, Some 0x118ad, None);
   (0x118ce, Ll, Some 0x118ae, None); (0x118cf, Ll, Some 0x118af, None); (0x118d0, Ll, Some 0x118b0, None);
   (0x118d1, Ll, Some 0x118b1, None); (0x118d2, Ll, Some 0x118b2, None); (0x118d3, Ll, Some 0x118b3, None);
   (0x118d4, Ll, Some 0x118b4, None); (0x118d5, Ll, Some 0x118b5, None); (0x118d6, Ll, Some 0x118b6, None);
   (0x118d7, Ll, Some 0x118b7, None); (0x118d8, Ll, Some 0x118b8, None); (0x118d9, Ll, Some 0x118b9, None);
   (0x118da, Ll, Some 0x118ba, None); (0x118db, Ll, Some 0x118bb, None); (0x118dc, Ll, Some 0x118bc, None);
   (0x118dd, Ll, Some 0x118bd, None); (0x118de, Ll, Some 0x118be, None); (0x118df, Ll, Some 0x118bf, None);
   (0x16e40, Lu, None, Some 0x16e60); (0x16e41, Lu, None, Some 0x16e61); (0x16e42, Lu, None, Some 0x16e62);
   (0x16e43, Lu, None, Some 0x16e63); (0x16e44, Lu, None, Some 0x16e64); (0x16e45, Lu, None, Some 0x16e65);
   (0x16e46, Lu, None, Some 0x16e66); (0x16e47, Lu, None, Some 0x16e67); (0x16e48, Lu, None, Some 0x16e68);
   (0x16e49, Lu, None, Some 0x16e69); (0x16e4a, Lu, None, Some 0x16e6a); (0x16e4b, Lu, None, Some 0x16e6b);
   (0x16e4c, Lu, None, Some 0x16e6c); (0x16e4d, Lu, None, Some 0x16e6d); (0x16e4e, Lu, None, Some 0x16e6e);
   (0x16e4f, Lu, None, Some 0x16e6f); (0x16e50, Lu, None, Some 0x16e70); (0x16e51, Lu, None, Some 0x16e71);
   (0x16e52, Lu, None, Some 0x16e72); (0x16e53, Lu, None, Some 0x16e73); (0x16e54, Lu, None, Some 0x16e74);
   (0x16e55, Lu, None, Some 0x16e75); (0x16e56, Lu, None, Some 0x16e76); (0x16e57, Lu, None, Some 0x16e77);
   (0x16e58, Lu, None, Some 0x16e78); (0x16e59, Lu, None, Some 0x16e79); (0x16e5a, Lu, None, Some 0x16e7a);
   (0x16e5b, Lu, None, Some 0x16e7b); (0x16e5c, Lu, None, Some 0x16e7c); (0x16e5d, Lu, None, Some 0x16e7d);
   (0x16e5e, Lu, None, Some 0x16e7e); (0x16e5f, Lu, None, Some 0x16e7f); (0x16e60, Ll, Some 0x16e40, None);
   (0x16e61, Ll, Some 0x16e41, None); (0x16e62, Ll, Some 0x16e42, None); (0x16e63, Ll, Some 0x16e43, None);
   (0x16e64, Ll, Some 0x16e44, None); (0x16e65, Ll, Some 0x16e45, None); (0x16e66, Ll, Some 0x16e46, None);
   (0x16e67, Ll, Some 0x16e47, None); (0x16e68, Ll, Some 0x16e48, None); (0x16e69, Ll, Some 0x16e49, None);
   (0x16e6a, Ll, Some 0x16e4a, None); (0x16e6b, Ll, Some 0x16e4b, None); (0x16e6c, Ll, Some 0x16e4c, None);
   (0x16e6d, Ll, Some 0x16e4d, None); (0x16e6e, Ll, Some 0x16e4e, None); (0x16e6f, Ll, Some 0x16e4f, None);
   (0x16e70, Ll, Some 0x16e50, None); (0x16e71, Ll, Some 0x16e51, None); (0x16e72, Ll, Some 0x16e52, None);
   (0x16e73, Ll, Some 0x16e53, None); (0x16e74, Ll, Some 0x16e54, None); (0x16e75, Ll, Some 0x16e55, None);
   (0x16e76, Ll, Some 0x16e56, None); (0x16e77, Ll, Some 0x16e57, None); (0x16e78, Ll, Some 0x16e58, None);
   (0x16e79, Ll, Some 0x16e59, None); (0x16e7a, Ll, Some 0x16e5a, None); (0x16e7b, Ll, Some 0x16e5b, None);
   (0x16e7c, Ll, Some 0x16e5c, None); (0x16e7d, Ll, Some 0x16e5d, None); (0x16e7e, Ll, Some 0x16e5e, None);
   (0x16e7f, Ll, Some 0x16e5f, None); (0x1e900, Lu, None, Some 0x1e922); (0x1e901, Lu, None, Some 0x1e923);
   (0x1e902, Lu, None, Some 0x1e924); (0x1e903, Lu, None, Some 0x1e925); (0x1e904, Lu, None, Some 0x1e926);
   (0x1e905, Lu, None, Some 0x1e927); (0x1e906, Lu, None, Some 0x1e928); (0x1e907, Lu, None, Some 0x1e929);
   (0x1e908, Lu, None, Some 0x1e92a); (0x1e909, Lu, None, Some 0x1e92b); (0x1e90a, Lu, None, Some 0x1e92c);
   (0x1e90b, Lu, None, Some 0x1e92d); (0x1e90c, Lu, None, Some 0x1e92e); (0x1e90d, Lu, None, Some 0x1e92f);
   (0x1e90e, Lu, None, Some 0x1e930); (0x1e90f, Lu, None, Some 0x1e931); (0x1e910, Lu, None, Some 0x1e932);
   (0x1e911, Lu, None, Some 0x1e933); (0x1e912, Lu, None, Some 0x1e934); (0x1e913, Lu, None, Some 0x1e935);
   (0x1e914, Lu, None, Some 0x1e936); (0x1e915, Lu, None, Some 0x1e937); (0x1e916, Lu, None, Some 0x1e938);
   (0x1e917, Lu, None, Some 0x1e939); (0x1e918, Lu, None, Some 0x1e93a); (0x1e919, Lu, None, Some 0x1e93b);
   (0x1e91a, Lu, None, Some 0x1e93c); (0x1e91b, Lu, None, Some 0x1e93d); (0x1e91c, Lu, None, Some 0x1e93e);
   (0x1e91d, Lu, None, Some 0x1e93f); (0x1e91e, Lu, None, Some 0x1e940); (0x1e91f, Lu, None, Some 0x1e941);
   (0x1e920, Lu, None, Some 0x1e942); (0x1e921, Lu, None, Some 0x1e943); (0x1e922, Ll, Some 0x1e900, None);
   (0x1e923, Ll, Some 0x1e901, None); (0x1e924, Ll, Some 0x1e902, None); (0x1e925, Ll, Some 0x1e903, None);
   (0x1e926, Ll, Some 0x1e904, None); (0x1e927, Ll, Some 0x1e905, None); (0x1e928, Ll, Some 0x1e906, None);
   (0x1e929, Ll, Some 0x1e907, None); (0x1e92a, Ll, Some 0x1e908, None); (0x1e92b, Ll, Some 0x1e909, None);
   (0x1e92c, Ll, Some 0x1e90a, None); (0x1e92d, Ll, Some 0x1e90b, None); (0x1e92e, Ll, Some 0x1e90c, None);
   (0x1e92f, Ll, Some 0x1e90d, None); (0x1e930, Ll, Some 0x1e90e, None); (0x1e931, Ll, Some 0x1e90f, None);
   (0x1e932, Ll, Some 0x1e910, None); (0x1e933, Ll, Some 0x1e911, None); (0x1e934, Ll, Some 0x1e912, None);
   (0x1e935, Ll, Some 0x1e913, None); (0x1e936, Ll, Some 0x1e914, None); (0x1e937, Ll, Some 0x1e915, None);
   (0x1e938, Ll, Some 0x1e916, None); (0x1e939, Ll, Some 0x1e917, None); (0x1e93a, Ll, Some 0x1e918, None);
   (0x1e93b, Ll, Some 0x1e919, None); (0x1e93c, Ll, Some 0x1e91a, None); (0x1e93d, Ll, Some 0x1e91b, None);
   (0x1e93e, Ll, Some 0x1e91c, None); (0x1e93f, Ll, Some 0x1e91d, None); (0x1e940, Ll, Some 0x1e91e, None);
   (0x1e941, Ll, Some 0x1e91f, None); (0x1e942, Ll, Some 0x1e920, None); (0x1e943, Ll, Some 0x1e921, None)].
