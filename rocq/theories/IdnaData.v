(** Generated by tools/gen_idna.py from idna/IdnaMappingTable.txt. *)
From Verif Require Import Base IdnaTabModel.

(** idna/IdnaMappingTable.txt: the lines with a status. *)
Definition idna_data : list idna_row :=
  [(0x0, 0x2c, Std3_valid, None); (0x2d, 0x2e, Valid, None); (0x2f, 0x2f, Std3_valid, None);
   (0x30, 0x39, Valid, None); (0x3a, 0x40, Std3_valid, None); (0x41, 0x41, Mapped, Some [0x61]);
   (0x42, 0x42, Mapped, Some [0x62]); (0x43, 0x43, Mapped, Some [0x63]); (0x44, 0x44, Mapped, Some [0x64]);
   (0x45, 0x45, Mapped, Some [0x65]); (0x46, 0x46, Mapped, Some [0x66]); (0x47, 0x47, Mapped, Some [0x67]);
   (0x48, 0x48, Mapped, Some [0x68]); (0x49, 0x49, Mapped, Some [0x69]); (0x4a, 0x4a, Mapped, Some [0x6a]);
   (0x4b, 0x4b, Mapped, Some [0x6b]); (0x4c, 0x4c, Mapped, Some [0x6c]); (0x4d, 0x4d, Mapped, Some [0x6d]);
   (0x4e, 0x4e, Mapped, Some [0x6e]); (0x4f, 0x4f, Mapped, Some [0x6f]); (0x50, 0x50, Mapped, Some [0x70]);
   (0x51, 0x51, Mapped, Some [0x71]); (0x52, 0x52, Mapped, Some [0x72]); (0x53, 0x53, Mapped, Some [0x73]);
   (0x54, 0x54, Mapped, Some [0x74]); (0x55, 0x55, Mapped, Some [0x75]); (0x56, 0x56, Mapped, Some [0x76]);
   (0x57, 0x57, Mapped, Some [0x77]); (0x58, 0x58, Mapped, Some [0x78]); (0x59, 0x59, Mapped, Some [0x79]);
   (0x5a, 0x5a, Mapped, Some [0x7a]); (0x5b, 0x60, Std3_valid, None); (0x61, 0x7a, Valid, None);
   (0x7b, 0x7f, Std3_valid, None); (0x80, 0x9f, Disallowed, None); (0xa0, 0xa0, Std3_mapped, Some [0x20]);
   (0xa1, 0xa7, Valid, Some []); (0xa8, 0xa8, Std3_mapped, Some [0x20; 0x308]); (0xa9, 0xa9, Valid, Some []);
   (0xaa, 0xaa, Mapped, Some [0x61]); (0xab, 0xac, Valid, Some []); (0xad, 0xad, Ignored, None);
   (0xae, 0xae, Valid, Some []); (0xaf, 0xaf, Std3_mapped, Some [0x20; 0x304]); (0xb0, 0xb1, Valid, Some []);
   (0xb2, 0xb2, Mapped, Some [0x32]); (0xb3, 0xb3, Mapped, Some [0x33]); (0xb4, 0xb4, Std3_mapped, Some [0x20; 0x301]);
   (0xb5, 0xb5, Mapped, Some [0x3bc]); (0xb6, 0xb6, Valid, Some []); (0xb7, 0xb7, Valid, None);
   (0xb8, 0xb8, Std3_mapped, Some [0x20; 0x327]); (0xb9, 0xb9, Mapped, Some [0x31]); (0xba, 0xba, Mapped, Some [0x6f]);
   (0xbb, 0xbb, Valid, Some []); (0xbc, 0xbc, Mapped, Some [0x31; 0x2044; 0x34]); (0xbd, 0xbd, Mapped, Some [0x31; 0x2044; 0x32]);
   (0xbe, 0xbe, Mapped, Some [0x33; 0x2044; 0x34]); (0xbf, 0xbf, Valid, Some []); (0xc0, 0xc0, Mapped, Some [0xe0]);
   (0xc1, 0xc1, Mapped, Some [0xe1]); (0xc2, 0xc2, Mapped, Some [0xe2]); (0xc3, 0xc3, Mapped, Some [0xe3]);
   (0xc4, 0xc4, Mapped, Some [0xe4]); (0xc5, 0xc5, Mapped, Some [0xe5]); (0xc6, 0xc6, Mapped, Some [0xe6]);
   (0xc7, 0xc7, Mapped, Some [0xe7]); (0xc8, 0xc8, Mapped, Some [0xe8]); (0xc9, 0xc9, Mapped, Some [0xe9]);
   (0xca, 0xca, Mapped, Some [0xea]); (0xcb, 0xcb, Mapped, Some [0xeb]); (0xcc, 0xcc, Mapped, Some [0xec]);
   (0xcd, 0xcd, Mapped, Some [0xed]); (0xce, 0xce, Mapped, Some [0xee]); (0xcf, 0xcf, Mapped, Some [0xef]);
   (0xd0, 0xd0, Mapped, Some [0xf0]); (0xd1, 0xd1, Mapped, Some [0xf1]); (0xd2, 0xd2, Mapped, Some [0xf2]);
   (0xd3, 0xd3, Mapped, Some [0xf3]); (0xd4, 0xd4, Mapped, Some [0xf4]); (0xd5, 0xd5, Mapped, Some [0xf5]);
   (0xd6, 0xd6, Mapped, Some [0xf6]); (0xd7, 0xd7, Valid, Some []); (0xd8, 0xd8, Mapped, Some [0xf8]);
   (0xd9, 0xd9, Mapped, Some [0xf9]); (0xda, 0xda, Mapped, Some [0xfa]); (0xdb, 0xdb, Mapped, Some [0xfb]);
   (0xdc, 0xdc, Mapped, Some [0xfc]); (0xdd, 0xdd, Mapped, Some [0xfd]); (0xde, 0xde, Mapped, Some [0xfe]);
   (0xdf, 0xdf, Deviation, Some [0x73; 0x73]); (0xe0, 0xf6, Valid, None); (0xf7, 0xf7, Valid, Some []);
   (0xf8, 0xff, Valid, None); (0x100, 0x100, Mapped, Some [0x101]); (0x101, 0x101, Valid, None);
   (0x102, 0x102, Mapped, Some [0x103]); (0x103, 0x103, Valid, None); (0x104, 0x104, Mapped, Some [0x105]);
   (0x105, 0x105, Valid, None); (0x106, 0x106, Mapped, Some [0x107]); (0x107, 0x107, Valid, None);
   (0x108, 0x108, Mapped, Some [0x109]); (0x109, 0x109, Valid, None); (0x10a, 0x10a, Mapped, Some [0x10b]);
   (0x10b, 0x10b, Valid, None); (0x10c, 0x10c, Mapped, Some [0x10d]); (0x10d, 0x10d, Valid, None);
   (0x10e, 0x10e, Mapped, Some [0x10f]); (0x10f, 0x10f, Valid, None); (0x110, 0x110, Mapped, Some [0x111]);
   (0x111, 0x111, Valid, None); (0x112, 0x112, Mapped, Some [0x113]); (0x113, 0x113, Valid, None);
   (0x114, 0x114, Mapped, Some [0x115]); (0x115, 0x115, Valid, None); (0x116, 0x116, Mapped, Some [0x117]);
   (0x117, 0x117, Valid, None); (0x118, 0x118, Mapped, Some [0x119]); (0x119, 0x119, Valid, None);
   (0x11a, 0x11a, Mapped, Some [0x11b]); (0x11b, 0x11b, Valid, None); (0x11c, 0x11c, Mapped, Some [0x11d]);
   (0x11d, 0x11d, Valid, None); (0x11e, 0x11e, Mapped, Some [0x11f]); (0x11f, 0x11f, Valid, None);
   (0x120, 0x120, Mapped, Some [0x121]); (0x121, 0x121, Valid, None); (0x122, 0x122, Mapped, Some [0x123]);
   (0x123, 0x123, Valid, None); (0x124, 0x124, Mapped, Some [0x125]); (0x125, 0x125, Valid, None);
   (0x126, 0x126, Mapped, Some [0x127]); (0x127, 0x127, Valid, None); (0x128, 0x128, Mapped, Some [0x129]);
   (0x129, 0x129, Valid, None); (0x12a, 0x12a, Mapped, Some [0x12b]); (0x12b, 0x12b, Valid, None);
   (0x12c, 0x12c, Mapped, Some [0x12d]); (0x12d, 0x12d, Valid, None); (0x12e, 0x12e, Mapped, Some [0x12f]);
   (0x12f, 0x12f, Valid, None); (0x130, 0x130, Mapped, Some [0x69; 0x307]); (0x131, 0x131, Valid, None);
   (0x132, 0x133, Mapped, Some [0x69; 0x6a]); (0x134, 0x134, Mapped, Some [0x135]); (0x135, 0x135, Valid, None);
   (0x136, 0x136, Mapped, Some [0x137]); (0x137, 0x138, Valid, None); (0x139, 0x139, Mapped, Some [0x13a]);
   (0x13a, 0x13a, Valid, None); (0x13b, 0x13b, Mapped, Some [0x13c]); (0x13c, 0x13c, Valid, None);
   (0x13d, 0x13d, Mapped, Some [0x13e]); (0x13e, 0x13e, Valid, None); (0x13f, 0x140, Mapped, Some [0x6c; 0xb7]);
   (0x141, 0x141, Mapped, Some [0x142]); (0x142, 0x142, Valid, None); (0x143, 0x143, Mapped, Some [0x144]);
   (0x144, 0x144, Valid, None); (0x145, 0x145, Mapped, Some [0x146]); (0x146, 0x146, Valid, None);
   (0x147, 0x147, Mapped, Some [0x148]); (0x148, 0x148, Valid, None); (0x149, 0x149, Mapped, Some [0x2bc; 0x6e]);
   (0x14a, 0x14a, Mapped, Some [0x14b]); (0x14b, 0x14b, Valid, None); (0x14c, 0x14c, Mapped, Some [0x14d]);
   (0x14d, 0x14d, Valid, None); (0x14e, 0x14e, Mapped, Some [0x14f]); (0x14f, 0x14f, Valid, None);
   (0x150, 0x150, Mapped, Some [0x151]); (0x151, 0x151, Valid, None); (0x152, 0x152, Mapped, Some [0x153]);
   (0x153, 0x153, Valid, None); (0x154, 0x154, Mapped, Some [0x155]); (0x155, 0x155, Valid, None);
   (0x156, 0x156, Mapped, Some [0x157]); (0x157, 0x157, Valid, None); (0x158, 0x158, Mapped, Some [0x159]);
   (0x159, 0x159, Valid, None); (0x15a, 0x15a, Mapped, Some [0x15b]); (0x15b, 0x15b, Valid, None);
   (0x15c, 0x15c, Mapped, Some [0x15d]); (0x15d, 0x15d, Valid, None); (0x15e, 0x15e, Mapped, Some [0x15f]);
   (0x15f, 0x15f, Valid, None); (0x160, 0x160, Mapped, Some [0x161]); (0x161, 0x161, Valid, None);
   (0x162, 0x162, Mapped, Some [0x163]); (0x163, 0x163, Valid, None); (0x164, 0x164, Mapped, Some [0x165]);
   (0x165, 0x165, Valid, None); (0x166, 0x166, Mapped, Some [0x167]); (0x167, 0x167, Valid, None);
   (0x168, 0x168, Mapped, Some [0x169]); (0x169, 0x169, Valid, None); (0x16a, 0x16a, Mapped, Some [0x16b]);
   (0x16b, 0x16b, Valid, None); (0x16c, 0x16c, Mapped, Some [0x16d]); (0x16d, 0x16d, Valid, None);
   (0x16e, 0x16e, Mapped, Some [0x16f]); (0x16f, 0x16f, Valid, None); (0x170, 0x170, Mapped, Some [0x171]);
   (0x171, 0x171, Valid, None); (0x172, 0x172, Mapped, Some [0x173]); (0x173, 0x173, Valid, None);
   (0x174, 0x174, Mapped, Some [0x175]); (0x175, 0x175, Valid, None); (0x176, 0x176, Mapped, Some [0x177]);
   (0x177, 0x177, Valid, None); (0x178, 0x178, Mapped, Some [0xff]); (0x179, 0x179, Mapped, Some [0x17a]);
   (0x17a, 0x17a, Valid, None); (0x17b, 0x17b, Mapped, Some [0x17c]); (0x17c, 0x17c, Valid, None);
   (0x17d, 0x17d, Mapped, Some [0x17e]); (0x17e, 0x17e, Valid, None); (0x17f, 0x17f, Mapped, Some [0x73]);
   (0x180, 0x180, Valid, None); (0x181, 0x181, Mapped, Some [0x253]); (0x182, 0x182, Mapped, Some [0x183]);
   (0x183, 0x183, Valid, None); (0x184, 0x184, Mapped, Some [0x185]); (0x185, 0x185, Valid, None);
   (0x186, 0x186, Mapped, Some [0x254]); (0x187, 0x187, Mapped, Some [0x188]); (0x188, 0x188, Valid, None);
   (0x189, 0x189, Mapped, Some [0x256]); (0x18a, 0x18a, Mapped, Some [0x257]); (0x18b, 0x18b, Mapped, Some [0x18c]);
   (0x18c, 0x18d, Valid, None); (0x18e, 0x18e, Mapped, Some [0x1dd]); (0x18f, 0x18f, Mapped, Some [0x259]);
   (0x190, 0x190, Mapped, Some [0x25b]); (0x191, 0x191, Mapped, Some [0x192]); (0x192, 0x192, Valid, None);
   (0x193, 0x193, Mapped, Some [0x260]); (0x194, 0x194, Mapped, Some [0x263]); (0x195, 0x195, Valid, None);
   (0x196, 0x196, Mapped, Some [0x269]); (0x197, 0x197, Mapped, Some [0x268]); (0x198, 0x198, Mapped, Some [0x199]);
   (0x199, 0x19b, Valid, None); (0x19c, 0x19c, Mapped, Some [0x26f]); (0x19d, 0x19d, Mapped, Some [0x272]);
   (0x19e, 0x19e, Valid, None); (0x19f, 0x19f, Mapped, Some [0x275]); (0x1a0, 0x1a0, Mapped, Some [0x1a1]);
   (0x1a1, 0x1a1, Valid, None); (0x1a2, 0x1a2, Mapped, Some [0x1a3]); (0x1a3, 0x1a3, Valid, None);
   (0x1a4, 0x1a4, Mapped, Some [0x1a5]); (0x1a5, 0x1a5, Valid, None); (0x1a6, 0x1a6, Mapped, Some [0x280]);
   (0x1a7, 0x1a7, Mapped, Some [0x1a8]); (0x1a8, 0x1a8, Valid, None); (0x1a9, 0x1a9, Mapped, Some [0x283]);
   (0x1aa, 0x1ab, Valid, None); (0x1ac, 0x1ac, Mapped, Some [0x1ad]); (0x1ad, 0x1ad, Valid, None);
   (0x1ae, 0x1ae, Mapped, Some [0x288]); (0x1af, 0x1af, Mapped, Some [0x1b0]); (0x1b0, 0x1b0, Valid, None);
   (0x1b1, 0x1b1, Mapped, Some [0x28a]); (0x1b2, 0x1b2, Mapped, Some [0x28b]); (0x1b3, 0x1b3, Mapped, Some [0x1b4]);
   (0x1b4, 0x1b4, Valid, None); (0x1b5, 0x1b5, Mapped, Some [0x1b6]); (0x1b6, 0x1b6, Valid, None);
   (0x1b7, 0x1b7, Mapped, Some [0x292]); (0x1b8, 0x1b8, Mapped, Some [0x1b9]); (0x1b9, 0x1bb, Valid, None);
   (0x1bc, 0x1bc, Mapped, Some [0x1bd]); (0x1bd, 0x1c3, Valid, None); (0x1c4, 0x1c6, Mapped, Some [0x64; 0x17e]);
   (0x1c7, 0x1c9, Mapped, Some [0x6c; 0x6a]); (0x1ca, 0x1cc, Mapped, Some [0x6e; 0x6a]); (0x1cd, 0x1cd, Mapped, Some [0x1ce]);
   (0x1ce, 0x1ce, Valid, None); (0x1cf, 0x1cf, Mapped, Some [0x1d0]); (0x1d0, 0x1d0, Valid, None);
   (0x1d1, 0x1d1, Mapped, Some [0x1d2]); (0x1d2, 0x1d2, Valid, None); (0x1d3, 0x1d3, Mapped, Some [0x1d4]);
   (0x1d4, 0x1d4, Valid, None); (0x1d5, 0x1d5, Mapped, Some [0x1d6]); (0x1d6, 0x1d6, Valid, None);
   (0x1d7, 0x1d7, Mapped, Some [0x1d8]); (0x1d8, 0x1d8, Valid, None); (0x1d9, 0x1d9, Mapped, Some [0x1da]);
   (0x1da, 0x1da, Valid, None); (0x1db, 0x1db, Mapped, Some [0x1dc]); (0x1dc, 0x1dd, Valid, None);
   (0x1de, 0x1de, Mapped, Some [0x1df]); (0x1df, 0x1df, Valid, None); (0x1e0, 0x1e0, Mapped, Some [0x1e1]);
   (0x1e1, 0x1e1, Valid, None); (0x1e2, 0x1e2, Mapped, Some [0x1e3]); (0x1e3, 0x1e3, Valid, None);
   (0x1e4, 0x1e4, Mapped, Some [0x1e5]); (0x1e5, 0x1e5, Valid, None); (0x1e6, 0x1e6, Mapped, Some [0x1e7]);
   (0x1e7, 0x1e7, Valid, None); (0x1e8, 0x1e8, Mapped, Some [0x1e9]); (0x1e9, 0x1e9, Valid, None);
   (0x1ea, 0x1ea, Mapped, Some [0x1eb]); (0x1eb, 0x1eb, Valid, None); (0x1ec, 0x1ec, Mapped, Some [0x1ed]);
   (0x1ed, 0x1ed, Valid, None); (0x1ee, 0x1ee, Mapped, Some [0x1ef]); (0x1ef, 0x1f0, Valid, None);
   (0x1f1, 0x1f3, Mapped, Some [0x64; 0x7a]); (0x1f4, 0x1f4, Mapped, Some [0x1f5]); (0x1f5, 0x1f5, Valid, None);
   (0x1f6, 0x1f6, Mapped, Some [0x195]); (0x1f7, 0x1f7, Mapped, Some [0x1bf]); (0x1f8, 0x1f8, Mapped, Some [0x1f9]);
   (0x1f9, 0x1f9, Valid, None); (0x1fa, 0x1fa, Mapped, Some [0x1fb]); (0x1fb, 0x1fb, Valid, None);
   (0x1fc, 0x1fc, Mapped, Some [0x1fd]); (0x1fd, 0x1fd, Valid, None); (0x1fe, 0x1fe, Mapped, Some [0x1ff]);
   (0x1ff, 0x1ff, Valid, None); (0x200, 0x200, Mapped, Some [0x201]); (0x201, 0x201, Valid, None);
   (0x202, 0x202, Mapped, Some [0x203]); (0x203, 0x203, Valid, None); (0x204, 0x204, Mapped, Some [0x205]);
   (0x205, 0x205, Valid, None); (0x206, 0x206, Mapped, Some [0x207]); (0x207, 0x207, Valid, None);
   (0x208, 0x208, Mapped, Some [0x209]); (0x209, 0x209, Valid, None); (0x20a, 0x20a, Mapped, Some [0x20b]);
   (0x20b, 0x20b, Valid, None); (0x20c, 0x20c, Mapped, Some [0x20d]); (0x20d, 0x20d, Valid, None);
   (0x20e, 0x20e, Mapped, Some [0x20f]); (0x20f, 0x20f, Valid, None); (0x210, 0x210, Mapped, Some [0x211]);
   (0x211, 0x211, Valid, None); (0x212, 0x212, Mapped, Some [0x213]); (0x213, 0x213, Valid, None);
   (0x214, 0x214, Mapped, Some [0x215]); (0x215, 0x215, Valid, None); (0x216, 0x216, Mapped, Some [0x217]);
   (0x217, 0x217, Valid, None); (0x218, 0x218, Mapped, Some [0x219]); (0x219, 0x219, Valid, None);
   (0x21a, 0x21a, Mapped, Some [0x21b]); (0x21b, 0x21b, Valid, None); (0x21c, 0x21c, Mapped, Some [0x21d]);
   (0x21d, 0x21d, Valid, None); (0x21e, 0x21e, Mapped, Some [0x21f]); (0x21f, 0x21f, Valid, None);
   (0x220, 0x220, Mapped, Some [0x19e]); (0x221, 0x221, Valid, None); (0x222, 0x222, Mapped, Some [0x223]);
   (0x223, 0x223, Valid, None); (0x224, 0x224, Mapped, Some [0x225]); (0x225, 0x225, Valid, None);
   (0x226, 0x226, Mapped, Some [0x227]); (0x227, 0x227, Valid, None); (0x228, 0x228, Mapped, Some [0x229]);
   (0x229, 0x229, Valid, None); (0x22a, 0x22a, Mapped, Some [0x22b]); (0x22b, 0x22b, Valid, None);
   (0x22c, 0x22c, Mapped, Some [0x22d]); (0x22d, 0x22d, Valid, None); (0x22e, 0x22e, Mapped, Some [0x22f]);
   (0x22f, 0x22f, Valid, None); (0x230, 0x230, Mapped, Some [0x231]); (0x231, 0x231, Valid, None);
   (0x232, 0x232, Mapped, Some [0x233]); (0x233, 0x233, Valid, None); (0x234, 0x236, Valid, None);
   (0x237, 0x239, Valid, None); (0x23a, 0x23a, Mapped, Some [0x2c65]); (0x23b, 0x23b, Mapped, Some [0x23c]);
   (0x23c, 0x23c, Valid, None); (0x23d, 0x23d, Mapped, Some [0x19a]); (0x23e, 0x23e, Mapped, Some [0x2c66]);
   (0x23f, 0x240, Valid, None); (0x241, 0x241, Mapped, Some [0x242]); (0x242, 0x242, Valid, None);
   (0x243, 0x243, Mapped, Some [0x180]); (0x244, 0x244, Mapped, Some [0x289]); (0x245, 0x245, Mapped, Some [0x28c]);
   (0x246, 0x246, Mapped, Some [0x247]); (0x247, 0x247, Valid, None); (0x248, 0x248, Mapped, Some [0x249]);
   (0x249, 0x249, Valid, None); (0x24a, 0x24a, Mapped, Some [0x24b]); (0x24b, 0x24b, Valid, None);
   (0x24c, 0x24c, Mapped, Some [0x24d]); (0x24d, 0x24d, Valid, None); (0x24e, 0x24e, Mapped, Some [0x24f]);
   (0x24f, 0x24f, Valid, None); (0x250, 0x2a8, Valid, None); (0x2a9, 0x2ad, Valid, None);
   (0x2ae, 0x2af, Valid, None); (0x2b0, 0x2b0, Mapped, Some [0x68]); (0x2b1, 0x2b1, Mapped, Some [0x266]);
   (0x2b2, 0x2b2, Mapped, Some [0x6a]); (0x2b3, 0x2b3, Mapped, Some [0x72]); (0x2b4, 0x2b4, Mapped, Some [0x279]);
   (0x2b5, 0x2b5, Mapped, Some [0x27b]); (0x2b6, 0x2b6, Mapped, Some [0x281]); (0x2b7, 0x2b7, Mapped, Some [0x77]);
   (0x2b8, 0x2b8, Mapped, Some [0x79]); (0x2b9, 0x2c1, Valid, None); (0x2c2, 0x2c5, Valid, Some []);
   (0x2c6, 0x2d1, Valid, None); (0x2d2, 0x2d7, Valid, Some []); (0x2d8, 0x2d8, Std3_mapped, Some [0x20; 0x306]);
   (0x2d9, 0x2d9, Std3_mapped, Some [0x20; 0x307]); (0x2da, 0x2da, Std3_mapped, Some [0x20; 0x30a]); (0x2db, 0x2db, Std3_mapped, Some [0x20; 0x328]);
   (0x2dc, 0x2dc, Std3_mapped, Some [0x20; 0x303]); (0x2dd, 0x2dd, Std3_mapped, Some [0x20; 0x30b]); (0x2de, 0x2de, Valid, Some []);
   (0x2df, 0x2df, Valid, Some []); (0x2e0, 0x2e0, Mapped, Some [0x263]); (0x2e1, 0x2e1, Mapped, Some [0x6c]);
   (0x2e2, 0x2e2, Mapped, Some [0x73]); (0x2e3, 0x2e3, Mapped, Some [0x78]); (0x2e4, 0x2e4, Mapped, Some [0x295]);
   (0x2e5, 0x2e9, Valid, Some []); (0x2ea, 0x2eb, Valid, Some []); (0x2ec, 0x2ec, Valid, None);
   (0x2ed, 0x2ed, Valid, Some []); (0x2ee, 0x2ee, Valid, None); (0x2ef, 0x2ff, Valid, Some []);
   (0x300, 0x33f, Valid, None); (0x340, 0x340, Mapped, Some [0x300]); (0x341, 0x341, Mapped, Some [0x301]);
   (0x342, 0x342, Valid, None); (0x343, 0x343, Mapped, Some [0x313]); (0x344, 0x344, Mapped, Some [0x308; 0x301]);
   (0x345, 0x345, Mapped, Some [0x3b9]); (0x346, 0x34e, Valid, None); (0x34f, 0x34f, Ignored, None);
   (0x350, 0x357, Valid, None); (0x358, 0x35c, Valid, None); (0x35d, 0x35f, Valid, None);
   (0x360, 0x361, Valid, None); (0x362, 0x362, Valid, None); (0x363, 0x36f, Valid, None);
   (0x370, 0x370, Mapped, Some [0x371]); (0x371, 0x371, Valid, None); (0x372, 0x372, Mapped, Some [0x373]);
   (0x373, 0x373, Valid, None); (0x374, 0x374, Mapped, Some [0x2b9]); (0x375, 0x375, Valid, None);
   (0x376, 0x376, Mapped, Some [0x377]); (0x377, 0x377, Valid, None); (0x378, 0x379, Disallowed, None);
   (0x37a, 0x37a, Std3_mapped, Some [0x20; 0x3b9]); (0x37b, 0x37d, Valid, None); (0x37e, 0x37e, Std3_mapped, Some [0x3b]);
   (0x37f, 0x37f, Mapped, Some [0x3f3]); (0x380, 0x383, Disallowed, None); (0x384, 0x384, Std3_mapped, Some [0x20; 0x301]);
   (0x385, 0x385, Std3_mapped, Some [0x20; 0x308; 0x301]); (0x386, 0x386, Mapped, Some [0x3ac]); (0x387, 0x387, Mapped, Some [0xb7]);
   (0x388, 0x388, Mapped, Some [0x3ad]); (0x389, 0x389, Mapped, Some [0x3ae]); (0x38a, 0x38a, Mapped, Some [0x3af]);
   (0x38b, 0x38b, Disallowed, None); (0x38c, 0x38c, Mapped, Some [0x3cc]); (0x38d, 0x38d, Disallowed, None);
   (0x38e, 0x38e, Mapped, Some [0x3cd]); (0x38f, 0x38f, Mapped, Some [0x3ce]); (0x390, 0x390, Valid, None);
   (0x391, 0x391, Mapped, Some [0x3b1]); (0x392, 0x392, Mapped, Some [0x3b2]); (0x393, 0x393, Mapped, Some [0x3b3]);
   (0x394, 0x394, Mapped, Some [0x3b4]); (0x395, 0x395, Mapped, Some [0x3b5]); (0x396, 0x396, Mapped, Some [0x3b6]);
   (0x397, 0x397, Mapped, Some [0x3b7]); (0x398, 0x398, Mapped, Some [0x3b8]); (0x399, 0x399, Mapped, Some [0x3b9]);
   (0x39a, 0x39a, Mapped, Some [0x3ba]); (0x39b, 0x39b, Mapped, Some [0x3bb]); (0x39c, 0x39c, Mapped, Some [0x3bc]);
   (0x39d, 0x39d, Mapped, Some [0x3bd]); (0x39e, 0x39e, Mapped, Some [0x3be]); (0x39f, 0x39f, Mapped, Some [0x3bf]);
   (0x3a0, 0x3a0, Mapped, Some [0x3c0]); (0x3a1, 0x3a1, Mapped, Some [0x3c1]); (0x3a2, 0x3a2, Disallowed, None);
   (0x3a3, 0x3a3, Mapped, Some [0x3c3]); (0x3a4, 0x3a4, Mapped, Some [0x3c4]); (0x3a5, 0x3a5, Mapped, Some [0x3c5]);
   (0x3a6, 0x3a6, Mapped, Some [0x3c6]); (0x3a7, 0x3a7, Mapped, Some [0x3c7]); (0x3a8, 0x3a8, Mapped, Some [0x3c8]);
   (0x3a9, 0x3a9, Mapped, Some [0x3c9]); (0x3aa, 0x3aa, Mapped, Some [0x3ca]); (0x3ab, 0x3ab, Mapped, Some [0x3cb]);
   (0x3ac, 0x3c1, Valid, None); (0x3c2, 0x3c2, Deviation, Some [0x3c3]); (0x3c3, 0x3ce, Valid, None);
   (0x3cf, 0x3cf, Mapped, Some [0x3d7]); (0x3d0, 0x3d0, Mapped, Some [0x3b2]); (0x3d1, 0x3d1, Mapped, Some [0x3b8]);
   (0x3d2, 0x3d2, Mapped, Some [0x3c5]); (0x3d3, 0x3d3, Mapped, Some [0x3cd]); (0x3d4, 0x3d4, Mapped, Some [0x3cb]);
   (0x3d5, 0x3d5, Mapped, Some [0x3c6]); (0x3d6, 0x3d6, Mapped, Some [0x3c0]); (0x3d7, 0x3d7, Valid, None);
   (0x3d8, 0x3d8, Mapped, Some [0x3d9]); (0x3d9, 0x3d9, Valid, None); (0x3da, 0x3da, Mapped, Some [0x3db]);
   (0x3db, 0x3db, Valid, None); (0x3dc, 0x3dc, Mapped, Some [0x3dd]); (0x3dd, 0x3dd, Valid, None);
   (0x3de, 0x3de, Mapped, Some [0x3df]); (0x3df, 0x3df, Valid, None); (0x3e0, 0x3e0, Mapped, Some [0x3e1]);
   (0x3e1, 0x3e1, Valid, None); (0x3e2, 0x3e2, Mapped, Some [0x3e3]); (0x3e3, 0x3e3, Valid, None);
   (0x3e4, 0x3e4, Mapped, Some [0x3e5]); (0x3e5, 0x3e5, Valid, None); (0x3e6, 0x3e6, Mapped, Some [0x3e7]);
   (0x3e7, 0x3e7, Valid, None); (0x3e8, 0x3e8, Mapped, Some [0x3e9]); (0x3e9, 0x3e9, Valid, None);
   (0x3ea, 0x3ea, Mapped, Some [0x3eb]); (0x3eb, 0x3eb, Valid, None); (0x3ec, 0x3ec, Mapped, Some [0x3ed]);
   (0x3ed, 0x3ed, Valid, None); (0x3ee, 0x3ee, Mapped, Some [0x3ef]); (0x3ef, 0x3ef, Valid, None);
   (0x3f0, 0x3f0, Mapped, Some [0x3ba]); (0x3f1, 0x3f1, Mapped, Some [0x3c1]); (0x3f2, 0x3f2, Mapped, Some [0x3c3]);
   (0x3f3, 0x3f3, Valid, None); (0x3f4, 0x3f4, Mapped, Some [0x3b8]); (0x3f5, 0x3f5, Mapped, Some [0x3b5]);
   (0x3f6, 0x3f6, Valid, Some []); (0x3f7, 0x3f7, Mapped, Some [0x3f8]); (0x3f8, 0x3f8, Valid, None);
   (0x3f9, 0x3f9, Mapped, Some [0x3c3]); (0x3fa, 0x3fa, Mapped, Some [0x3fb]); (0x3fb, 0x3fb, Valid, None);
   (0x3fc, 0x3fc, Valid, None); (0x3fd, 0x3fd, Mapped, Some [0x37b]); (0x3fe, 0x3fe, Mapped, Some [0x37c]);
   (0x3ff, 0x3ff, Mapped, Some [0x37d]); (0x400, 0x400, Mapped, Some [0x450]); (0x401, 0x401, Mapped, Some [0x451]);
   (0x402, 0x402, Mapped, Some [0x452]); (0x403, 0x403, Mapped, Some [0x453]); (0x404, 0x404, Mapped, Some [0x454]);
   (0x405, 0x405, Mapped, Some [0x455]); (0x406, 0x406, Mapped, Some [0x456]); (0x407, 0x407, Mapped, Some [0x457]);
   (0x408, 0x408, Mapped, Some [0x458]); (0x409, 0x409, Mapped, Some [0x459]); (0x40a, 0x40a, Mapped, Some [0x45a]);
   (0x40b, 0x40b, Mapped, Some [0x45b]); (0x40c, 0x40c, Mapped, Some [0x45c]); (0x40d, 0x40d, Mapped, Some [0x45d]);
   (0x40e, 0x40e, Mapped, Some [0x45e]); (0x40f, 0x40f, Mapped, Some [0x45f]); (0x410, 0x410, Mapped, Some [0x430]);
   (0x411, 0x411, Mapped, Some [0x431]); (0x412, 0x412, Mapped, Some [0x432]); (0x413, 0x413, Mapped, Some [0x433]);
   (0x414, 0x414, Mapped, Some [0x434]); (0x415, 0x415, Mapped, Some [0x435]); (0x416, 0x416, Mapped, Some [0x436]);
   (0x417, 0x417, Mapped, Some [0x437]); (0x418, 0x418, Mapped, Some [0x438]); (0x419, 0x419, Mapped, Some [0x439]);
   (0x41a, 0x41a, Mapped, Some [0x43a]); (0x41b, 0x41b, Mapped, Some [0x43b]); (0x41c, 0x41c, Mapped, Some [0x43c]);
   (0x41d, 0x41d, Mapped, Some [0x43d]); (0x41e, 0x41e, Mapped, Some [0x43e]); (0x41f, 0x41f, Mapped, Some [0x43f]);
   (0x420, 0x420, Mapped, Some [0x440]); (0x421, 0x421, Mapped, Some [0x441]); (0x422, 0x422, Mapped, Some [0x442]);
   (0x423, 0x423, Mapped, Some [0x443]); (0x424, 0x424, Mapped, Some [0x444]); (0x425, 0x425, Mapped, Some [0x445]);
   (0x426, 0x426, Mapped, Some [0x446]); (0x427, 0x427, Mapped, Some [0x447]); (0x428, 0x428, Mapped, Some [0x448]);
   (0x429, 0x429, Mapped, Some [0x449]); (0x42a, 0x42a, Mapped, Some [0x44a]); (0x42b, 0x42b, Mapped, Some [0x44b]);
   (0x42c, 0x42c, Mapped, Some [0x44c]); (0x42d, 0x42d, Mapped, Some [0x44d]); (0x42e, 0x42e, Mapped, Some [0x44e]);
   (0x42f, 0x42f, Mapped, Some [0x44f]); (0x430, 0x44f, Valid, None); (0x450, 0x450, Valid, None);
   (0x451, 0x45c, Valid, None); (0x45d, 0x45d, Valid, None); (0x45e, 0x45f, Valid, None);
   (0x460, 0x460, Mapped, Some [0x461]); (0x461, 0x461, Valid, None); (0x462, 0x462, Mapped, Some [0x463]);
   (0x463, 0x463, Valid, None); (0x464, 0x464, Mapped, Some [0x465]); (0x465, 0x465, Valid, None);
   (0x466, 0x466, Mapped, Some [0x467]); (0x467, 0x467, Valid, None); (0x468, 0x468, Mapped, Some [0x469]);
   (0x469, 0x469, Valid, None); (0x46a, 0x46a, Mapped, Some [0x46b]); (0x46b, 0x46b, Valid, None);
   (0x46c, 0x46c, Mapped, Some [0x46d]); (0x46d, 0x46d, Valid, None); (0x46e, 0x46e, Mapped, Some [0x46f]);
   (0x46f, 0x46f, Valid, None); (0x470, 0x470, Mapped, Some [0x471]); (0x471, 0x471, Valid, None);
   (0x472, 0x472, Mapped, Some [0x473]); (0x473, 0x473, Valid, None); (0x474, 0x474, Mapped, Some [0x475]);
   (0x475, 0x475, Valid, None); (0x476, 0x476, Mapped, Some [0x477]); (0x477, 0x477, Valid, None);
   (0x478, 0x478, Mapped, Some [0x479]); (0x479, 0x479, Valid, None); (0x47a, 0x47a, Mapped, Some [0x47b]);
   (0x47b, 0x47b, Valid, None); (0x47c, 0x47c, Mapped, Some [0x47d]); (0x47d, 0x47d, Valid, None);
   (0x47e, 0x47e, Mapped, Some [0x47f]); (0x47f, 0x47f, Valid, None); (0x480, 0x480, Mapped, Some [0x481]);
   (0x481, 0x481, Valid, None); (0x482, 0x482, Valid, Some []); (0x483, 0x486, Valid, None);
   (0x487, 0x487, Valid, None); (0x488, 0x489, Valid, Some []); (0x48a, 0x48a, Mapped, Some [0x48b]);
   (0x48b, 0x48b, Valid, None); (0x48c, 0x48c, Mapped, Some [0x48d]); (0x48d, 0x48d, Valid, None);
   (0x48e, 0x48e, Mapped, Some [0x48f]); (0x48f, 0x48f, Valid, None); (0x490, 0x490, Mapped, Some [0x491]);
   (0x491, 0x491, Valid, None); (0x492, 0x492, Mapped, Some [0x493]); (0x493, 0x493, Valid, None);
   (0x494, 0x494, Mapped, Some [0x495]); (0x495, 0x495, Valid, None); (0x496, 0x496, Mapped, Some [0x497]);
   (0x497, 0x497, Valid, None); (0x498, 0x498, Mapped, Some [0x499]); (0x499, 0x499, Valid, None);
   (0x49a, 0x49a, Mapped, Some [0x49b]); (0x49b, 0x49b, Valid, None); (0x49c, 0x49c, Mapped, Some [0x49d]);
   (0x49d, 0x49d, Valid, None); (0x49e, 0x49e, Mapped, Some [0x49f]); (0x49f, 0x49f, Valid, None);
   (0x4a0, 0x4a0, Mapped, Some [0x4a1]); (0x4a1, 0x4a1, Valid, None); (0x4a2, 0x4a2, Mapped, Some [0x4a3]);
   (0x4a3, 0x4a3, Valid, None); (0x4a4, 0x4a4, Mapped, Some [0x4a5]); (0x4a5, 0x4a5, Valid, None);
   (0x4a6, 0x4a6, Mapped, Some [0x4a7]); (0x4a7, 0x4a7, Valid, None); (0x4a8, 0x4a8, Mapped, Some [0x4a9]);
   (0x4a9, 0x4a9, Valid, None); (0x4aa, 0x4aa, Mapped, Some [0x4ab]); (0x4ab, 0x4ab, Valid, None);
   (0x4ac, 0x4ac, Mapped, Some [0x4ad]); (0x4ad, 0x4ad, Valid, None); (0x4ae, 0x4ae, Mapped, Some [0x4af]);
   (0x4af, 0x4af, Valid, None); (0x4b0, 0x4b0, Mapped, Some [0x4b1]); (0x4b1, 0x4b1, Valid, None);
   (0x4b2, 0x4b2, Mapped, Some [0x4b3]); (0x4b3, 0x4b3, Valid, None); (0x4b4, 0x4b4, Mapped, Some [0x4b5]);
   (0x4b5, 0x4b5, Valid, None); (0x4b6, 0x4b6, Mapped, Some [0x4b7]); (0x4b7, 0x4b7, Valid, None);
   (0x4b8, 0x4b8, Mapped, Some [0x4b9]); (0x4b9, 0x4b9, Valid, None); (0x4ba, 0x4ba, Mapped, Some [0x4bb]);
   (0x4bb, 0x4bb, Valid, None); (0x4bc, 0x4bc, Mapped, Some [0x4bd]); (0x4bd, 0x4bd, Valid, None);
   (0x4be, 0x4be, Mapped, Some [0x4bf]); (0x4bf, 0x4bf, Valid, None); (0x4c0, 0x4c0, Disallowed, None);
   (0x4c1, 0x4c1, Mapped, Some [0x4c2]); (0x4c2, 0x4c2, Valid, None); (0x4c3, 0x4c3, Mapped, Some [0x4c4]);
   (0x4c4, 0x4c4, Valid, None); (0x4c5, 0x4c5, Mapped, Some [0x4c6]); (0x4c6, 0x4c6, Valid, None);
   (0x4c7, 0x4c7, Mapped, Some [0x4c8]); (0x4c8, 0x4c8, Valid, None); (0x4c9, 0x4c9, Mapped, Some [0x4ca]);
   (0x4ca, 0x4ca, Valid, None); (0x4cb, 0x4cb, Mapped, Some [0x4cc]); (0x4cc, 0x4cc, Valid, None);
   (0x4cd, 0x4cd, Mapped, Some [0x4ce]); (0x4ce, 0x4ce, Valid, None); (0x4cf, 0x4cf, Valid, None);
   (0x4d0, 0x4d0, Mapped, Some [0x4d1]); (0x4d1, 0x4d1, Valid, None); (0x4d2, 0x4d2, Mapped, Some [0x4d3]);
   (0x4d3, 0x4d3, Valid, None); (0x4d4, 0x4d4, Mapped, Some [0x4d5]); (0x4d5, 0x4d5, Valid, None);
   (0x4d6, 0x4d6, Mapped, Some [0x4d7]); (0x4d7, 0x4d7, Valid, None); (0x4d8, 0x4d8, Mapped, Some [0x4d9]);
   (0x4d9, 0x4d9, Valid, None); (0x4da, 0x4da, Mapped, Some [0x4db]); (0x4db, 0x4db, Valid, None);
   (0x4dc, 0x4dc, Mapped, Some [0x4dd]); (0x4dd, 0x4dd, Valid, None); (0x4de, 0x4de, Mapped, Some [0x4df]);
   (0x4df, 0x4df, Valid, None); (0x4e0, 0x4e0, Mapped, Some [0x4e1]); (0x4e1, 0x4e1, Valid, None);
   (0x4e2, 0x4e2, Mapped, Some [0x4e3]); (0x4e3, 0x4e3, Valid, None); (0x4e4, 0x4e4, Mapped, Some [0x4e5]);
   (0x4e5, 0x4e5, Valid, None); (0x4e6, 0x4e6, Mapped, Some [0x4e7]); (0x4e7, 0x4e7, Valid, None);
   (0x4e8, 0x4e8, Mapped, Some [0x4e9]); (0x4e9, 0x4e9, Valid, None); (0x4ea, 0x4ea, Mapped, Some [0x4eb]);
   (0x4eb, 0x4eb, Valid, None); (0x4ec, 0x4ec, Mapped, Some [0x4ed]); (0x4ed, 0x4ed, Valid, None);
   (0x4ee, 0x4ee, Mapped, Some [0x4ef]); (0x4ef, 0x4ef, Valid, None); (0x4f0, 0x4f0, Mapped, Some [0x4f1]);
   (0x4f1, 0x4f1, Valid, None); (0x4f2, 0x4f2, Mapped, Some [0x4f3]); (0x4f3, 0x4f3, Valid, None);
   (0x4f4, 0x4f4, Mapped, Some [0x4f5]); (0x4f5, 0x4f5, Valid, None); (0x4f6, 0x4f6, Mapped, Some [0x4f7]);
   (0x4f7, 0x4f7, Valid, None); (0x4f8, 0x4f8, Mapped, Some [0x4f9]); (0x4f9, 0x4f9, Valid, None);
   (0x4fa, 0x4fa, Mapped, Some [0x4fb]); (0x4fb, 0x4fb, Valid, None); (0x4fc, 0x4fc, Mapped, Some [0x4fd]);
   (0x4fd, 0x4fd, Valid, None); (0x4fe, 0x4fe, Mapped, Some [0x4ff]); (0x4ff, 0x4ff, Valid, None);
   (0x500, 0x500, Mapped, Some [0x501]); (0x501, 0x501, Valid, None); (0x502, 0x502, Mapped, Some [0x503]);
   (0x503, 0x503, Valid, None); (0x504, 0x504, Mapped, Some [0x505]); (0x505, 0x505, Valid, None);
   (0x506, 0x506, Mapped, Some [0x507]); (0x507, 0x507, Valid, None); (0x508, 0x508, Mapped, Some [0x509]);
   (0x509, 0x509, Valid, None); (0x50a, 0x50a, Mapped, Some [0x50b]); (0x50b, 0x50b, Valid, None);
   (0x50c, 0x50c, Mapped, Some [0x50d]); (0x50d, 0x50d, Valid, None); (0x50e, 0x50e, Mapped, Some [0x50f]);
   (0x50f, 0x50f, Valid, None); (0x510, 0x510, Mapped, Some [0x511]); (0x511, 0x511, Valid, None);
   (0x512, 0x512, Mapped, Some [0x513]); (0x513, 0x513, Valid, None); (0x514, 0x514, Mapped, Some [0x515]);
   (0x515, 0x515, Valid, None); (0x516, 0x516, Mapped, Some [0x517]); (0x517, 0x517, Valid, None);
   (0x518, 0x518, Mapped, Some [0x519]); (0x519, 0x519, Valid, None); (0x51a, 0x51a, Mapped, Some [0x51b]);
   (0x51b, 0x51b, Valid, None); (0x51c, 0x51c, Mapped, Some [0x51d]); (0x51d, 0x51d, Valid, None);
   (0x51e, 0x51e, Mapped, Some [0x51f]); (0x51f, 0x51f, Valid, None); (0x520, 0x520, Mapped, Some [0x521]);
   (0x521, 0x521, Valid, None); (0x522, 0x522, Mapped, Some [0x523]); (0x523, 0x523, Valid, None);
   (0x524, 0x524, Mapped, Some [0x525]); (0x525, 0x525, Valid, None); (0x526, 0x526, Mapped, Some [0x527]);
   (0x527, 0x527, Valid, None); (0x528, 0x528, Mapped, Some [0x529]); (0x529, 0x529, Valid, None);
   (0x52a, 0x52a, Mapped, Some [0x52b]); (0x52b, 0x52b, Valid, None); (0x52c, 0x52c, Mapped, Some [0x52d]);
   (0x52d, 0x52d, Valid, None); (0x52e, 0x52e, Mapped, Some [0x52f]); (0x52f, 0x52f, Valid, None);
   (0x530, 0x530, Disallowed, None); (0x531, 0x531, Mapped, Some [0x561]); (0x532, 0x532, Mapped, Some [0x562]);
   (0x533, 0x533, Mapped, Some [0x563]); (0x534, 0x534, Mapped, Some [0x564]); (0x535, 0x535, Mapped, Some [0x565]);
   (0x536, 0x536, Mapped, Some [0x566]); (0x537, 0x537, Mapped, Some [0x567]); (0x538, 0x538, Mapped, Some [0x568]);
   (0x539, 0x539, Mapped, Some [0x569]); (0x53a, 0x53a, Mapped, Some [0x56a]); (0x53b, 0x53b, Mapped, Some [0x56b]);
   (0x53c, 0x53c, Mapped, Some [0x56c]); (0x53d, 0x53d, Mapped, Some [0x56d]); (0x53e, 0x53e, Mapped, Some [0x56e]);
   (0x53f, 0x53f, Mapped, Some [0x56f]); (0x540, 0x540, Mapped, Some [0x570]); (0x541, 0x541, Mapped, Some [0x571]);
   (0x542, 0x542, Mapped, Some [0x572]); (0x543, 0x543, Mapped, Some [0x573]); (0x544, 0x544, Mapped, Some [0x574]);
   (0x545, 0x545, Mapped, Some [0x575]); (0x546, 0x546, Mapped, Some [0x576]); (0x547, 0x547, Mapped, Some [0x577]);
   (0x548, 0x548, Mapped, Some [0x578]); (0x549, 0x549, Mapped, Some [0x579]); (0x54a, 0x54a, Mapped, Some [0x57a]);
   (0x54b, 0x54b, Mapped, Some [0x57b]); (0x54c, 0x54c, Mapped, Some [0x57c]); (0x54d, 0x54d, Mapped, Some [0x57d]);
   (0x54e, 0x54e, Mapped, Some [0x57e]); (0x54f, 0x54f, Mapped, Some [0x57f]); (0x550, 0x550, Mapped, Some [0x580]);
   (0x551, 0x551, Mapped, Some [0x581]); (0x552, 0x552, Mapped, Some [0x582]); (0x553, 0x553, Mapped, Some [0x583]);
   (0x554, 0x554, Mapped, Some [0x584]); (0x555, 0x555, Mapped, Some [0x585]); (0x556, 0x556, Mapped, Some [0x586]);
   (0x557, 0x558, Disallowed, None); (0x559, 0x559, Valid, None); (0x55a, 0x55f, Valid, Some []);
   (0x560, 0x560, Valid, None); (0x561, 0x586, Valid, None); (0x587, 0x587, Mapped, Some [0x565; 0x582]);
   (0x588, 0x588, Valid, None); (0x589, 0x589, Valid, Some []); (0x58a, 0x58a, Valid, Some []);
   (0x58b, 0x58c, Disallowed, None); (0x58d, 0x58e, Valid, Some []); (0x58f, 0x58f, Valid, Some []);
   (0x590, 0x590, Disallowed, None); (0x591, 0x5a1, Valid, None); (0x5a2, 0x5a2, Valid, None);
   (0x5a3, 0x5af, Valid, None); (0x5b0, 0x5b9, Valid, None); (0x5ba, 0x5ba, Valid, None);
   (0x5bb, 0x5bd, Valid, None); (0x5be, 0x5be, Valid, Some []); (0x5bf, 0x5bf, Valid, None);
   (0x5c0, 0x5c0, Valid, Some []); (0x5c1, 0x5c2, Valid, None); (0x5c3, 0x5c3, Valid, Some []);
   (0x5c4, 0x5c4, Valid, None); (0x5c5, 0x5c5, Valid, None); (0x5c6, 0x5c6, Valid, Some []);
   (0x5c7, 0x5c7, Valid, None); (0x5c8, 0x5cf, Disallowed, None); (0x5d0, 0x5ea, Valid, None);
   (0x5eb, 0x5ee, Disallowed, None); (0x5ef, 0x5ef, Valid, None); (0x5f0, 0x5f4, Valid, None);
   (0x5f5, 0x5ff, Disallowed, None); (0x600, 0x603, Disallowed, None); (0x604, 0x604, Disallowed, None);
   (0x605, 0x605, Disallowed, None); (0x606, 0x60a, Valid, Some []); (0x60b, 0x60b, Valid, Some []);
   (0x60c, 0x60c, Valid, Some []); (0x60d, 0x60f, Valid, Some []); (0x610, 0x615, Valid, None);
   (0x616, 0x61a, Valid, None); (0x61b, 0x61b, Valid, Some []); (0x61c, 0x61c, Disallowed, None);
   (0x61d, 0x61d, Disallowed, None); (0x61e, 0x61e, Valid, Some []); (0x61f, 0x61f, Valid, Some []);
   (0x620, 0x620, Valid, None); (0x621, 0x63a, Valid, None); (0x63b, 0x63f, Valid, None);
   (0x640, 0x640, Valid, Some []); (0x641, 0x652, Valid, None); (0x653, 0x655, Valid, None);
   (0x656, 0x658, Valid, None); (0x659, 0x65e, Valid, None); (0x65f, 0x65f, Valid, None);
   (0x660, 0x669, Valid, None); (0x66a, 0x66d, Valid, Some []); (0x66e, 0x66f, Valid, None);
   (0x670, 0x674, Valid, None); (0x675, 0x675, Mapped, Some [0x627; 0x674]); (0x676, 0x676, Mapped, Some [0x648; 0x674]);
   (0x677, 0x677, Mapped, Some [0x6c7; 0x674]); (0x678, 0x678, Mapped, Some [0x64a; 0x674]); (0x679, 0x6b7, Valid, None);
   (0x6b8, 0x6b9, Valid, None); (0x6ba, 0x6be, Valid, None); (0x6bf, 0x6bf, Valid, None);
   (0x6c0, 0x6ce, Valid, None); (0x6cf, 0x6cf, Valid, None); (0x6d0, 0x6d3, Valid, None);
   (0x6d4, 0x6d4, Valid, Some []); (0x6d5, 0x6dc, Valid, None); (0x6dd, 0x6dd, Disallowed, None);
   (0x6de, 0x6de, Valid, Some []); (0x6df, 0x6e8, Valid, None); (0x6e9, 0x6e9, Valid, Some []);
   (0x6ea, 0x6ed, Valid, None); (0x6ee, 0x6ef, Valid, None); (0x6f0, 0x6f9, Valid, None);
   (0x6fa, 0x6fe, Valid, None); (0x6ff, 0x6ff, Valid, None); (0x700, 0x70d, Valid, Some []);
   (0x70e, 0x70e, Disallowed, None); (0x70f, 0x70f, Disallowed, None); (0x710, 0x72c, Valid, None);
   (0x72d, 0x72f, Valid, None); (0x730, 0x74a, Valid, None); (0x74b, 0x74c, Disallowed, None);
   (0x74d, 0x74f, Valid, None); (0x750, 0x76d, Valid, None); (0x76e, 0x77f, Valid, None);
   (0x780, 0x7b0, Valid, None); (0x7b1, 0x7b1, Valid, None); (0x7b2, 0x7bf, Disallowed, None);
   (0x7c0, 0x7f5, Valid, None); (0x7f6, 0x7fa, Valid, Some []); (0x7fb, 0x7fc, Disallowed, None);
   (0x7fd, 0x7fd, Valid, None); (0x7fe, 0x7ff, Valid, Some []); (0x800, 0x82d, Valid, None);
   (0x82e, 0x82f, Disallowed, None); (0x830, 0x83e, Valid, Some []); (0x83f, 0x83f, Disallowed, None);
   (0x840, 0x85b, Valid, None); (0x85c, 0x85d, Disallowed, None); (0x85e, 0x85e, Valid, Some []);
   (0x85f, 0x85f, Disallowed, None); (0x860, 0x86a, Valid, None); (0x86b, 0x89f, Disallowed, None);
   (0x8a0, 0x8a0, Valid, None); (0x8a1, 0x8a1, Valid, None); (0x8a2, 0x8ac, Valid, None);
   (0x8ad, 0x8b2, Valid, None); (0x8b3, 0x8b4, Valid, None); (0x8b5, 0x8b5, Disallowed, None);
   (0x8b6, 0x8bd, Valid, None); (0x8be, 0x8c7, Valid, None); (0x8c8, 0x8d2, Disallowed, None);
   (0x8d3, 0x8d3, Valid, None); (0x8d4, 0x8e1, Valid, None); (0x8e2, 0x8e2, Disallowed, None);
   (0x8e3, 0x8e3, Valid, None); (0x8e4, 0x8fe, Valid, None); (0x8ff, 0x8ff, Valid, None);
   (0x900, 0x900, Valid, None); (0x901, 0x903, Valid, None); (0x904, 0x904, Valid, None);
   (0x905, 0x939, Valid, None); (0x93a, 0x93b, Valid, None); (0x93c, 0x94d, Valid, None);
   (0x94e, 0x94e, Valid, None); (0x94f, 0x94f, Valid, None); (0x950, 0x954, Valid, None);
   (0x955, 0x955, Valid, None); (0x956, 0x957, Valid, None); (0x958, 0x958, Mapped, Some [0x915; 0x93c]);
   (0x959, 0x959, Mapped, Some [0x916; 0x93c]); (0x95a, 0x95a, Mapped, Some [0x917; 0x93c]); (0x95b, 0x95b, Mapped, Some [0x91c; 0x93c]);
   (0x95c, 0x95c, Mapped, Some [0x921; 0x93c]); (0x95d, 0x95d, Mapped, Some [0x922; 0x93c]); (0x95e, 0x95e, Mapped, Some [0x92b; 0x93c]);
   (0x95f, 0x95f, Mapped, Some [0x92f; 0x93c]); (0x960, 0x963, Valid, None); (0x964, 0x965, Valid, Some []);
   (0x966, 0x96f, Valid, None); (0x970, 0x970, Valid, Some []); (0x971, 0x972, Valid, None);
   (0x973, 0x977, Valid, None); (0x978, 0x978, Valid, None); (0x979, 0x97a, Valid, None);
   (0x97b, 0x97c, Valid, None); (0x97d, 0x97d, Valid, None); (0x97e, 0x97f, Valid, None);
   (0x980, 0x980, Valid, None); (0x981, 0x983, Valid, None); (0x984, 0x984, Disallowed, None);
   (0x985, 0x98c, Valid, None); (0x98d, 0x98e, Disallowed, None); (0x98f, 0x990, Valid, None);
   (0x991, 0x992, Disallowed, None); (0x993, 0x9a8, Valid, None); (0x9a9, 0x9a9, Disallowed, None);
   (0x9aa, 0x9b0, Valid, None); (0x9b1, 0x9b1, Disallowed, None); (0x9b2, 0x9b2, Valid, None);
   (0x9b3, 0x9b5, Disallowed, None); (0x9b6, 0x9b9, Valid, None); (0x9ba, 0x9bb, Disallowed, None);
   (0x9bc, 0x9bc, Valid, None); (0x9bd, 0x9bd, Valid, None); (0x9be, 0x9c4, Valid, None);
   (0x9c5, 0x9c6, Disallowed, None); (0x9c7, 0x9c8, Valid, None); (0x9c9, 0x9ca, Disallowed, None);
   (0x9cb, 0x9cd, Valid, None); (0x9ce, 0x9ce, Valid, None); (0x9cf, 0x9d6, Disallowed, None);
   (0x9d7, 0x9d7, Valid, None); (0x9d8, 0x9db, Disallowed, None); (0x9dc, 0x9dc, Mapped, Some [0x9a1; 0x9bc]);
   (0x9dd, 0x9dd, Mapped, Some [0x9a2; 0x9bc]); (0x9de, 0x9de, Disallowed, None); (0x9df, 0x9df, Mapped, Some [0x9af; 0x9bc]);
   (0x9e0, 0x9e3, Valid, None); (0x9e4, 0x9e5, Disallowed, None); (0x9e6, 0x9f1, Valid, None);
   (0x9f2, 0x9fa, Valid, Some []); (0x9fb, 0x9fb, Valid, Some []); (0x9fc, 0x9fc, Valid, None);
   (0x9fd, 0x9fd, Valid, Some []); (0x9fe, 0x9fe, Valid, None); (0x9ff, 0xa00, Disallowed, None);
   (0xa01, 0xa01, Valid, None); (0xa02, 0xa02, Valid, None); (0xa03, 0xa03, Valid, None);
   (0xa04, 0xa04, Disallowed, None); (0xa05, 0xa0a, Valid, None); (0xa0b, 0xa0e, Disallowed, None);
   (0xa0f, 0xa10, Valid, None); (0xa11, 0xa12, Disallowed, None); (0xa13, 0xa28, Valid, None);
   (0xa29, 0xa29, Disallowed, None); (0xa2a, 0xa30, Valid, None); (0xa31, 0xa31, Disallowed, None);
   (0xa32, 0xa32, Valid, None); (0xa33, 0xa33, Mapped, Some [0xa32; 0xa3c]); (0xa34, 0xa34, Disallowed, None);
   (0xa35, 0xa35, Valid, None); (0xa36, 0xa36, Mapped, Some [0xa38; 0xa3c]); (0xa37, 0xa37, Disallowed, None);
   (0xa38, 0xa39, Valid, None); (0xa3a, 0xa3b, Disallowed, None); (0xa3c, 0xa3c, Valid, None);
   (0xa3d, 0xa3d, Disallowed, None); (0xa3e, 0xa42, Valid, None); (0xa43, 0xa46, Disallowed, None);
   (0xa47, 0xa48, Valid, None); (0xa49, 0xa4a, Disallowed, None); (0xa4b, 0xa4d, Valid, None);
   (0xa4e, 0xa50, Disallowed, None); (0xa51, 0xa51, Valid, None); (0xa52, 0xa58, Disallowed, None);
   (0xa59, 0xa59, Mapped, Some [0xa16; 0xa3c]); (0xa5a, 0xa5a, Mapped, Some [0xa17; 0xa3c]); (0xa5b, 0xa5b, Mapped, Some [0xa1c; 0xa3c]);
   (0xa5c, 0xa5c, Valid, None); (0xa5d, 0xa5d, Disallowed, None); (0xa5e, 0xa5e, Mapped, Some [0xa2b; 0xa3c]);
   (0xa5f, 0xa65, Disallowed, None); (0xa66, 0xa74, Valid, None); (0xa75, 0xa75, Valid, None);
   (0xa76, 0xa76, Valid, Some []); (0xa77, 0xa80, Disallowed, None); (0xa81, 0xa83, Valid, None);
   (0xa84, 0xa84, Disallowed, None); (0xa85, 0xa8b, Valid, None); (0xa8c, 0xa8c, Valid, None);
   (0xa8d, 0xa8d, Valid, None); (0xa8e, 0xa8e, Disallowed, None); (0xa8f, 0xa91, Valid, None);
   (0xa92, 0xa92, Disallowed, None); (0xa93, 0xaa8, Valid, None); (0xaa9, 0xaa9, Disallowed, None);
   (0xaaa, 0xab0, Valid, None); (0xab1, 0xab1, Disallowed, None); (0xab2, 0xab3, Valid, None);
   (0xab4, 0xab4, Disallowed, None); (0xab5, 0xab9, Valid, None); (0xaba, 0xabb, Disallowed, None);
   (0xabc, 0xac5, Valid, None); (0xac6, 0xac6, Disallowed, None); (0xac7, 0xac9, Valid, None);
   (0xaca, 0xaca, Disallowed, None); (0xacb, 0xacd, Valid, None); (0xace, 0xacf, Disallowed, None);
   (0xad0, 0xad0, Valid, None); (0xad1, 0xadf, Disallowed, None); (0xae0, 0xae0, Valid, None);
   (0xae1, 0xae3, Valid, None); (0xae4, 0xae5, Disallowed, None); (0xae6, 0xaef, Valid, None);
   (0xaf0, 0xaf0, Valid, Some []); (0xaf1, 0xaf1, Valid, Some []); (0xaf2, 0xaf8, Disallowed, None);
   (0xaf9, 0xaf9, Valid, None); (0xafa, 0xaff, Valid, None); (0xb00, 0xb00, Disallowed, None);
   (0xb01, 0xb03, Valid, None); (0xb04, 0xb04, Disallowed, None); (0xb05, 0xb0c, Valid, None);
   (0xb0d, 0xb0e, Disallowed, None); (0xb0f, 0xb10, Valid, None); (0xb11, 0xb12, Disallowed, None);
   (0xb13, 0xb28, Valid, None); (0xb29, 0xb29, Disallowed, None); (0xb2a, 0xb30, Valid, None);
   (0xb31, 0xb31, Disallowed, None); (0xb32, 0xb33, Valid, None); (0xb34, 0xb34, Disallowed, None);
   (0xb35, 0xb35, Valid, None); (0xb36, 0xb39, Valid, None); (0xb3a, 0xb3b, Disallowed, None);
   (0xb3c, 0xb43, Valid, None); (0xb44, 0xb44, Valid, None); (0xb45, 0xb46, Disallowed, None);
   (0xb47, 0xb48, Valid, None); (0xb49, 0xb4a, Disallowed, None); (0xb4b, 0xb4d, Valid, None);
   (0xb4e, 0xb54, Disallowed, None); (0xb55, 0xb55, Valid, None); (0xb56, 0xb57, Valid, None);
   (0xb58, 0xb5b, Disallowed, None); (0xb5c, 0xb5c, Mapped, Some [0xb21; 0xb3c]); (0xb5d, 0xb5d, Mapped, Some [0xb22; 0xb3c]);
   (0xb5e, 0xb5e, Disallowed, None); (0xb5f, 0xb61, Valid, None); (0xb62, 0xb63, Valid, None);
   (0xb64, 0xb65, Disallowed, None); (0xb66, 0xb6f, Valid, None); (0xb70, 0xb70, Valid, Some []);
   (0xb71, 0xb71, Valid, None); (0xb72, 0xb77, Valid, Some []); (0xb78, 0xb81, Disallowed, None);
   (0xb82, 0xb83, Valid, None); (0xb84, 0xb84, Disallowed, None); (0xb85, 0xb8a, Valid, None);
   (0xb8b, 0xb8d, Disallowed, None); (0xb8e, 0xb90, Valid, None); (0xb91, 0xb91, Disallowed, None);
   (0xb92, 0xb95, Valid, None); (0xb96, 0xb98, Disallowed, None); (0xb99, 0xb9a, Valid, None);
   (0xb9b, 0xb9b, Disallowed, None); (0xb9c, 0xb9c, Valid, None); (0xb9d, 0xb9d, Disallowed, None);
   (0xb9e, 0xb9f, Valid, None); (0xba0, 0xba2, Disallowed, None); (0xba3, 0xba4, Valid, None);
   (0xba5, 0xba7, Disallowed, None); (0xba8, 0xbaa, Valid, None); (0xbab, 0xbad, Disallowed, None);
   (0xbae, 0xbb5, Valid, None); (0xbb6, 0xbb6, Valid, None); (0xbb7, 0xbb9, Valid, None);
   (0xbba, 0xbbd, Disallowed, None); (0xbbe, 0xbc2, Valid, None); (0xbc3, 0xbc5, Disallowed, None);
   (0xbc6, 0xbc8, Valid, None); (0xbc9, 0xbc9, Disallowed, None); (0xbca, 0xbcd, Valid, None);
   (0xbce, 0xbcf, Disallowed, None); (0xbd0, 0xbd0, Valid, None); (0xbd1, 0xbd6, Disallowed, None);
   (0xbd7, 0xbd7, Valid, None); (0xbd8, 0xbe5, Disallowed, None); (0xbe6, 0xbe6, Valid, None);
   (0xbe7, 0xbef, Valid, None); (0xbf0, 0xbf2, Valid, Some []); (0xbf3, 0xbfa, Valid, Some []);
   (0xbfb, 0xbff, Disallowed, None); (0xc00, 0xc00, Valid, None); (0xc01, 0xc03, Valid, None);
   (0xc04, 0xc04, Valid, None); (0xc05, 0xc0c, Valid, None); (0xc0d, 0xc0d, Disallowed, None);
   (0xc0e, 0xc10, Valid, None); (0xc11, 0xc11, Disallowed, None); (0xc12, 0xc28, Valid, None);
   (0xc29, 0xc29, Disallowed, None); (0xc2a, 0xc33, Valid, None); (0xc34, 0xc34, Valid, None);
   (0xc35, 0xc39, Valid, None); (0xc3a, 0xc3c, Disallowed, None); (0xc3d, 0xc3d, Valid, None);
   (0xc3e, 0xc44, Valid, None); (0xc45, 0xc45, Disallowed, None); (0xc46, 0xc48, Valid, None);
   (0xc49, 0xc49, Disallowed, None); (0xc4a, 0xc4d, Valid, None); (0xc4e, 0xc54, Disallowed, None);
   (0xc55, 0xc56, Valid, None); (0xc57, 0xc57, Disallowed, None); (0xc58, 0xc59, Valid, None);
   (0xc5a, 0xc5a, Valid, None); (0xc5b, 0xc5f, Disallowed, None); (0xc60, 0xc61, Valid, None);
   (0xc62, 0xc63, Valid, None); (0xc64, 0xc65, Disallowed, None); (0xc66, 0xc6f, Valid, None);
   (0xc70, 0xc76, Disallowed, None); (0xc77, 0xc77, Valid, Some []); (0xc78, 0xc7f, Valid, Some []);
   (0xc80, 0xc80, Valid, None); (0xc81, 0xc81, Valid, None); (0xc82, 0xc83, Valid, None);
   (0xc84, 0xc84, Valid, Some []); (0xc85, 0xc8c, Valid, None); (0xc8d, 0xc8d, Disallowed, None);
   (0xc8e, 0xc90, Valid, None); (0xc91, 0xc91, Disallowed, None); (0xc92, 0xca8, Valid, None);
   (0xca9, 0xca9, Disallowed, None); (0xcaa, 0xcb3, Valid, None); (0xcb4, 0xcb4, Disallowed, None);
   (0xcb5, 0xcb9, Valid, None); (0xcba, 0xcbb, Disallowed, None); (0xcbc, 0xcbd, Valid, None);
   (0xcbe, 0xcc4, Valid, None); (0xcc5, 0xcc5, Disallowed, None); (0xcc6, 0xcc8, Valid, None);
   (0xcc9, 0xcc9, Disallowed, None); (0xcca, 0xccd, Valid, None); (0xcce, 0xcd4, Disallowed, None);
   (0xcd5, 0xcd6, Valid, None); (0xcd7, 0xcdd, Disallowed, None); (0xcde, 0xcde, Valid, None);
   (0xcdf, 0xcdf, Disallowed, None); (0xce0, 0xce1, Valid, None); (0xce2, 0xce3, Valid, None);
   (0xce4, 0xce5, Disallowed, None); (0xce6, 0xcef, Valid, None); (0xcf0, 0xcf0, Disallowed, None);
   (0xcf1, 0xcf2, Valid, None); (0xcf3, 0xcff, Disallowed, None); (0xd00, 0xd00, Valid, None);
   (0xd01, 0xd01, Valid, None); (0xd02, 0xd03, Valid, None); (0xd04, 0xd04, Valid, None);
   (0xd05, 0xd0c, Valid, None); (0xd0d, 0xd0d, Disallowed, None); (0xd0e, 0xd10, Valid, None);
   (0xd11, 0xd11, Disallowed, None); (0xd12, 0xd28, Valid, None); (0xd29, 0xd29, Valid, None);
   (0xd2a, 0xd39, Valid, None); (0xd3a, 0xd3a, Valid, None); (0xd3b, 0xd3c, Valid, None);
   (0xd3d, 0xd3d, Valid, None); (0xd3e, 0xd43, Valid, None); (0xd44, 0xd44, Valid, None);
   (0xd45, 0xd45, Disallowed, None); (0xd46, 0xd48, Valid, None); (0xd49, 0xd49, Disallowed, None);
   (0xd4a, 0xd4d, Valid, None); (0xd4e, 0xd4e, Valid, None); (0xd4f, 0xd4f, Valid, Some []);
   (0xd50, 0xd53, Disallowed, None); (0xd54, 0xd56, Valid, None); (0xd57, 0xd57, Valid, None);
   (0xd58, 0xd5e, Valid, Some []); (0xd5f, 0xd5f, Valid, None); (0xd60, 0xd61, Valid, None);
   (0xd62, 0xd63, Valid, None); (0xd64, 0xd65, Disallowed, None); (0xd66, 0xd6f, Valid, None);
   (0xd70, 0xd75, Valid, Some []); (0xd76, 0xd78, Valid, Some []); (0xd79, 0xd79, Valid, Some []);
   (0xd7a, 0xd7f, Valid, None); (0xd80, 0xd80, Disallowed, None); (0xd81, 0xd81, Valid, None);
   (0xd82, 0xd83, Valid, None); (0xd84, 0xd84, Disallowed, None); (0xd85, 0xd96, Valid, None);
   (0xd97, 0xd99, Disallowed, None); (0xd9a, 0xdb1, Valid, None); (0xdb2, 0xdb2, Disallowed, None);
   (0xdb3, 0xdbb, Valid, None); (0xdbc, 0xdbc, Disallowed, None); (0xdbd, 0xdbd, Valid, None);
   (0xdbe, 0xdbf, Disallowed, None); (0xdc0, 0xdc6, Valid, None); (0xdc7, 0xdc9, Disallowed, None);
   (0xdca, 0xdca, Valid, None); (0xdcb, 0xdce, Disallowed, None); (0xdcf, 0xdd4, Valid, None);
   (0xdd5, 0xdd5, Disallowed, None); (0xdd6, 0xdd6, Valid, None); (0xdd7, 0xdd7, Disallowed, None);
   (0xdd8, 0xddf, Valid, None); (0xde0, 0xde5, Disallowed, None); (0xde6, 0xdef, Valid, None);
   (0xdf0, 0xdf1, Disallowed, None); (0xdf2, 0xdf3, Valid, None); (0xdf4, 0xdf4, Valid, Some []);
   (0xdf5, 0xe00, Disallowed, None); (0xe01, 0xe32, Valid, None); (0xe33, 0xe33, Mapped, Some [0xe4d; 0xe32]);
   (0xe34, 0xe3a, Valid, None); (0xe3b, 0xe3e, Disallowed, None); (0xe3f, 0xe3f, Valid, Some []);
   (0xe40, 0xe4e, Valid, None); (0xe4f, 0xe4f, Valid, Some []); (0xe50, 0xe59, Valid, None);
   (0xe5a, 0xe5b, Valid, Some []); (0xe5c, 0xe80, Disallowed, None); (0xe81, 0xe82, Valid, None);
   (0xe83, 0xe83, Disallowed, None); (0xe84, 0xe84, Valid, None); (0xe85, 0xe85, Disallowed, None);
   (0xe86, 0xe86, Valid, None); (0xe87, 0xe88, Valid, None); (0xe89, 0xe89, Valid, None);
   (0xe8a, 0xe8a, Valid, None); (0xe8b, 0xe8b, Disallowed, None); (0xe8c, 0xe8c, Valid, None);
   (0xe8d, 0xe8d, Valid, None); (0xe8e, 0xe93, Valid, None); (0xe94, 0xe97, Valid, None);
   (0xe98, 0xe98, Valid, None); (0xe99, 0xe9f, Valid, None); (0xea0, 0xea0, Valid, None);
   (0xea1, 0xea3, Valid, None); (0xea4, 0xea4, Disallowed, None); (0xea5, 0xea5, Valid, None);
   (0xea6, 0xea6, Disallowed, None); (0xea7, 0xea7, Valid, None); (0xea8, 0xea9, Valid, None);
   (0xeaa, 0xeab, Valid, None); (0xeac, 0xeac, Valid, None); (0xead, 0xeb2, Valid, None);
   (0xeb3, 0xeb3, Mapped, Some [0xecd; 0xeb2]); (0xeb4, 0xeb9, Valid, None); (0xeba, 0xeba, Valid, None);
   (0xebb, 0xebd, Valid, None); (0xebe, 0xebf, Disallowed, None); (0xec0, 0xec4, Valid, None);
   (0xec5, 0xec5, Disallowed, None); (0xec6, 0xec6, Valid, None); (0xec7, 0xec7, Disallowed, None);
   (0xec8, 0xecd, Valid, None); (0xece, 0xecf, Disallowed, None); (0xed0, 0xed9, Valid, None);
   (0xeda, 0xedb, Disallowed, None); (0xedc, 0xedc, Mapped, Some [0xeab; 0xe99]); (0xedd, 0xedd, Mapped, Some [0xeab; 0xea1]);
   (0xede, 0xedf, Valid, None); (0xee0, 0xeff, Disallowed, None); (0xf00, 0xf00, Valid, None);
   (0xf01, 0xf0a, Valid, Some []); (0xf0b, 0xf0b, Valid, None); (0xf0c, 0xf0c, Mapped, Some [0xf0b]);
   (0xf0d, 0xf17, Valid, Some []); (0xf18, 0xf19, Valid, None); (0xf1a, 0xf1f, Valid, Some []);
   (0xf20, 0xf29, Valid, None); (0xf2a, 0xf34, Valid, Some []); (0xf35, 0xf35, Valid, None);
   (0xf36, 0xf36, Valid, Some []); (0xf37, 0xf37, Valid, None); (0xf38, 0xf38, Valid, Some []);
   (0xf39, 0xf39, Valid, None); (0xf3a, 0xf3d, Valid, Some []); (0xf3e, 0xf42, Valid, None);
   (0xf43, 0xf43, Mapped, Some [0xf42; 0xfb7]); (0xf44, 0xf47, Valid, None); (0xf48, 0xf48, Disallowed, None);
   (0xf49, 0xf4c, Valid, None); (0xf4d, 0xf4d, Mapped, Some [0xf4c; 0xfb7]); (0xf4e, 0xf51, Valid, None);
   (0xf52, 0xf52, Mapped, Some [0xf51; 0xfb7]); (0xf53, 0xf56, Valid, None); (0xf57, 0xf57, Mapped, Some [0xf56; 0xfb7]);
   (0xf58, 0xf5b, Valid, None); (0xf5c, 0xf5c, Mapped, Some [0xf5b; 0xfb7]); (0xf5d, 0xf68, Valid, None);
   (0xf69, 0xf69, Mapped, Some [0xf40; 0xfb5]); (0xf6a, 0xf6a, Valid, None); (0xf6b, 0xf6c, Valid, None);
   (0xf6d, 0xf70, Disallowed, None); (0xf71, 0xf72, Valid, None); (0xf73, 0xf73, Mapped, Some [0xf71; 0xf72]);
   (0xf74, 0xf74, Valid, None); (0xf75, 0xf75, Mapped, Some [0xf71; 0xf74]); (0xf76, 0xf76, Mapped, Some [0xfb2; 0xf80]);
   (0xf77, 0xf77, Mapped, Some [0xfb2; 0xf71; 0xf80]); (0xf78, 0xf78, Mapped, Some [0xfb3; 0xf80]); (0xf79, 0xf79, Mapped, Some [0xfb3; 0xf71; 0xf80]);
   (0xf7a, 0xf80, Valid, None); (0xf81, 0xf81, Mapped, Some [0xf71; 0xf80]); (0xf82, 0xf84, Valid, None);
   (0xf85, 0xf85, Valid, Some []); (0xf86, 0xf8b, Valid, None); (0xf8c, 0xf8f, Valid, None);
   (0xf90, 0xf92, Valid, None); (0xf93, 0xf93, Mapped, Some [0xf92; 0xfb7]); (0xf94, 0xf95, Valid, None);
   (0xf96, 0xf96, Valid, None); (0xf97, 0xf97, Valid, None); (0xf98, 0xf98, Disallowed, None);
   (0xf99, 0xf9c, Valid, None); (0xf9d, 0xf9d, Mapped, Some [0xf9c; 0xfb7]); (0xf9e, 0xfa1, Valid, None);
   (0xfa2, 0xfa2, Mapped, Some [0xfa1; 0xfb7]); (0xfa3, 0xfa6, Valid, None); (0xfa7, 0xfa7, Mapped, Some [0xfa6; 0xfb7]);
   (0xfa8, 0xfab, Valid, None); (0xfac, 0xfac, Mapped, Some [0xfab; 0xfb7]); (0xfad, 0xfad, Valid, None);
   (0xfae, 0xfb0, Valid, None); (0xfb1, 0xfb7, Valid, None); (0xfb8, 0xfb8, Valid, None);
   (0xfb9, 0xfb9, Mapped, Some [0xf90; 0xfb5]); (0xfba, 0xfbc, Valid, None); (0xfbd, 0xfbd, Disallowed, None);
   (0xfbe, 0xfc5, Valid, Some []); (0xfc6, 0xfc6, Valid, None); (0xfc7, 0xfcc, Valid, Some []);
   (0xfcd, 0xfcd, Disallowed, None); (0xfce, 0xfce, Valid, Some []); (0xfcf, 0xfcf, Valid, Some []);
   (0xfd0, 0xfd1, Valid, Some []); (0xfd2, 0xfd4, Valid, Some []); (0xfd5, 0xfd8, Valid, Some []);
   (0xfd9, 0xfda, Valid, Some []); (0xfdb, 0xfff, Disallowed, None); (0x1000, 0x1021, Valid, None);
   (0x1022, 0x1022, Valid, None); (0x1023, 0x1027, Valid, None); (0x1028, 0x1028, Valid, None);
   (0x1029, 0x102a, Valid, None); (0x102b, 0x102b, Valid, None); (0x102c, 0x1032, Valid, None);
   (0x1033, 0x1035, Valid, None); (0x1036, 0x1039, Valid, None); (0x103a, 0x103f, Valid, None);
   (0x1040, 0x1049, Valid, None); (0x104a, 0x104f, Valid, Some []); (0x1050, 0x1059, Valid, None);
   (0x105a, 0x1099, Valid, None); (0x109a, 0x109d, Valid, None); (0x109e, 0x109f, Valid, Some []);
   (0x10a0, 0x10c5, Disallowed, None); (0x10c6, 0x10c6, Disallowed, None); (0x10c7, 0x10c7, Mapped, Some [0x2d27]);
   (0x10c8, 0x10cc, Disallowed, None); (0x10cd, 0x10cd, Mapped, Some [0x2d2d]); (0x10ce, 0x10cf, Disallowed, None);
   (0x10d0, 0x10f6, Valid, None); (0x10f7, 0x10f8, Valid, None); (0x10f9, 0x10fa, Valid, None);
   (0x10fb, 0x10fb, Valid, Some []); (0x10fc, 0x10fc, Mapped, Some [0x10dc]); (0x10fd, 0x10ff, Valid, None);
   (0x1100, 0x1159, Valid, Some []); (0x115a, 0x115e, Valid, Some []); (0x115f, 0x1160, Disallowed, None);
   (0x1161, 0x11a2, Valid, Some []); (0x11a3, 0x11a7, Valid, Some []); (0x11a8, 0x11f9, Valid, Some []);
   (0x11fa, 0x11ff, Valid, Some []); (0x1200, 0x1206, Valid, None); (0x1207, 0x1207, Valid, None);
   (0x1208, 0x1246, Valid, None); (0x1247, 0x1247, Valid, None); (0x1248, 0x1248, Valid, None);
   (0x1249, 0x1249, Disallowed, None); (0x124a, 0x124d, Valid, None); (0x124e, 0x124f, Disallowed, None);
   (0x1250, 0x1256, Valid, None); (0x1257, 0x1257, Disallowed, None); (0x1258, 0x1258, Valid, None);
   (0x1259, 0x1259, Disallowed, None); (0x125a, 0x125d, Valid, None); (0x125e, 0x125f, Disallowed, None);
   (0x1260, 0x1286, Valid, None); (0x1287, 0x1287, Valid, None); (0x1288, 0x1288, Valid, None);
   (0x1289, 0x1289, Disallowed, None); (0x128a, 0x128d, Valid, None); (0x128e, 0x128f, Disallowed, None);
   (0x1290, 0x12ae, Valid, None); (0x12af, 0x12af, Valid, None); (0x12b0, 0x12b0, Valid, None);
   (0x12b1, 0x12b1, Disallowed, None); (0x12b2, 0x12b5, Valid, None); (0x12b6, 0x12b7, Disallowed, None);
   (0x12b8, 0x12be, Valid, None); (0x12bf, 0x12bf, Disallowed, None); (0x12c0, 0x12c0, Valid, None);
   (0x12c1, 0x12c1, Disallowed, None); (0x12c2, 0x12c5, Valid, None); (0x12c6, 0x12c7, Disallowed, None);
   (0x12c8, 0x12ce, Valid, None); (0x12cf, 0x12cf, Valid, None); (0x12d0, 0x12d6, Valid, None);
   (0x12d7, 0x12d7, Disallowed, None); (0x12d8, 0x12ee, Valid, None); (0x12ef, 0x12ef, Valid, None);
   (0x12f0, 0x130e, Valid, None); (0x130f, 0x130f, Valid, None); (0x1310, 0x1310, Valid, None);
   (0x1311, 0x1311, Disallowed, None); (0x1312, 0x1315, Valid, None); (0x1316, 0x1317, Disallowed, None);
   (0x1318, 0x131e, Valid, None); (0x131f, 0x131f, Valid, None); (0x1320, 0x1346, Valid, None);
   (0x1347, 0x1347, Valid, None); (0x1348, 0x135a, Valid, None); (0x135b, 0x135c, Disallowed, None);
   (0x135d, 0x135e, Valid, None); (0x135f, 0x135f, Valid, None); (0x1360, 0x1360, Valid, Some []);
   (0x1361, 0x137c, Valid, Some []); (0x137d, 0x137f, Disallowed, None); (0x1380, 0x138f, Valid, None);
   (0x1390, 0x1399, Valid, Some []); (0x139a, 0x139f, Disallowed, None); (0x13a0, 0x13f4, Valid, None);
   (0x13f5, 0x13f5, Valid, None); (0x13f6, 0x13f7, Disallowed, None); (0x13f8, 0x13f8, Mapped, Some [0x13f0]);
   (0x13f9, 0x13f9, Mapped, Some [0x13f1]); (0x13fa, 0x13fa, Mapped, Some [0x13f2]); (0x13fb, 0x13fb, Mapped, Some [0x13f3]);
   (0x13fc, 0x13fc, Mapped, Some [0x13f4]); (0x13fd, 0x13fd, Mapped, Some [0x13f5]); (0x13fe, 0x13ff, Disallowed, None);
   (0x1400, 0x1400, Valid, Some []); (0x1401, 0x166c, Valid, None); (0x166d, 0x166e, Valid, Some []);
   (0x166f, 0x1676, Valid, None); (0x1677, 0x167f, Valid, None); (0x1680, 0x1680, Disallowed, None);
   (0x1681, 0x169a, Valid, None); (0x169b, 0x169c, Valid, Some []); (0x169d, 0x169f, Disallowed, None);
   (0x16a0, 0x16ea, Valid, None); (0x16eb, 0x16f0, Valid, Some []); (0x16f1, 0x16f8, Valid, None);
   (0x16f9, 0x16ff, Disallowed, None); (0x1700, 0x170c, Valid, None); (0x170d, 0x170d, Disallowed, None);
   (0x170e, 0x1714, Valid, None); (0x1715, 0x171f, Disallowed, None); (0x1720, 0x1734, Valid, None);
   (0x1735, 0x1736, Valid, Some []); (0x1737, 0x173f, Disallowed, None); (0x1740, 0x1753, Valid, None);
   (0x1754, 0x175f, Disallowed, None); (0x1760, 0x176c, Valid, None); (0x176d, 0x176d, Disallowed, None);
   (0x176e, 0x1770, Valid, None); (0x1771, 0x1771, Disallowed, None); (0x1772, 0x1773, Valid, None);
   (0x1774, 0x177f, Disallowed, None); (0x1780, 0x17b3, Valid, None); (0x17b4, 0x17b5, Disallowed, None);
   (0x17b6, 0x17d3, Valid, None); (0x17d4, 0x17d6, Valid, Some []); (0x17d7, 0x17d7, Valid, None);
   (0x17d8, 0x17db, Valid, Some []); (0x17dc, 0x17dc, Valid, None); (0x17dd, 0x17dd, Valid, None);
   (0x17de, 0x17df, Disallowed, None); (0x17e0, 0x17e9, Valid, None); (0x17ea, 0x17ef, Disallowed, None);
   (0x17f0, 0x17f9, Valid, Some []); (0x17fa, 0x17ff, Disallowed, None); (0x1800, 0x1805, Valid, Some []);
   (0x1806, 0x1806, Disallowed, None); (0x1807, 0x180a, Valid, Some []); (0x180b, 0x180d, Ignored, None);
   (0x180e, 0x180e, Disallowed, None); (0x180f, 0x180f, Disallowed, None); (0x1810, 0x1819, Valid, None);
   (0x181a, 0x181f, Disallowed, None); (0x1820, 0x1877, Valid, None); (0x1878, 0x1878, Valid, None);
   (0x1879, 0x187f, Disallowed, None); (0x1880, 0x18a9, Valid, None); (0x18aa, 0x18aa, Valid, None);
   (0x18ab, 0x18af, Disallowed, None); (0x18b0, 0x18f5, Valid, None); (0x18f6, 0x18ff, Disallowed, None);
   (0x1900, 0x191c, Valid, None); (0x191d, 0x191e, Valid, None); (0x191f, 0x191f, Disallowed, None);
   (0x1920, 0x192b, Valid, None); (0x192c, 0x192f, Disallowed, None); (0x1930, 0x193b, Valid, None);
   (0x193c, 0x193f, Disallowed, None); (0x1940, 0x1940, Valid, Some []); (0x1941, 0x1943, Disallowed, None);
   (0x1944, 0x1945, Valid, Some []); (0x1946, 0x196d, Valid, None); (0x196e, 0x196f, Disallowed, None);
   (0x1970, 0x1974, Valid, None); (0x1975, 0x197f, Disallowed, None); (0x1980, 0x19a9, Valid, None);
   (0x19aa, 0x19ab, Valid, None); (0x19ac, 0x19af, Disallowed, None); (0x19b0, 0x19c9, Valid, None);
   (0x19ca, 0x19cf, Disallowed, None); (0x19d0, 0x19d9, Valid, None); (0x19da, 0x19da, Valid, Some []);
   (0x19db, 0x19dd, Disallowed, None); (0x19de, 0x19df, Valid, Some []); (0x19e0, 0x19ff, Valid, Some []);
   (0x1a00, 0x1a1b, Valid, None); (0x1a1c, 0x1a1d, Disallowed, None); (0x1a1e, 0x1a1f, Valid, Some []);
   (0x1a20, 0x1a5e, Valid, None); (0x1a5f, 0x1a5f, Disallowed, None); (0x1a60, 0x1a7c, Valid, None);
   (0x1a7d, 0x1a7e, Disallowed, None); (0x1a7f, 0x1a89, Valid, None); (0x1a8a, 0x1a8f, Disallowed, None);
   (0x1a90, 0x1a99, Valid, None); (0x1a9a, 0x1a9f, Disallowed, None); (0x1aa0, 0x1aa6, Valid, Some []);
   (0x1aa7, 0x1aa7, Valid, None); (0x1aa8, 0x1aad, Valid, Some []); (0x1aae, 0x1aaf, Disallowed, None);
   (0x1ab0, 0x1abd, Valid, None); (0x1abe, 0x1abe, Valid, Some []); (0x1abf, 0x1ac0, Valid, None);
   (0x1ac1, 0x1aff, Disallowed, None); (0x1b00, 0x1b4b, Valid, None); (0x1b4c, 0x1b4f, Disallowed, None);
   (0x1b50, 0x1b59, Valid, None); (0x1b5a, 0x1b6a, Valid, Some []); (0x1b6b, 0x1b73, Valid, None);
   (0x1b74, 0x1b7c, Valid, Some []); (0x1b7d, 0x1b7f, Disallowed, None); (0x1b80, 0x1baa, Valid, None);
   (0x1bab, 0x1bad, Valid, None); (0x1bae, 0x1bb9, Valid, None); (0x1bba, 0x1bbf, Valid, None);
   (0x1bc0, 0x1bf3, Valid, None); (0x1bf4, 0x1bfb, Disallowed, None); (0x1bfc, 0x1bff, Valid, Some []);
   (0x1c00, 0x1c37, Valid, None); (0x1c38, 0x1c3a, Disallowed, None); (0x1c3b, 0x1c3f, Valid, Some []);
   (0x1c40, 0x1c49, Valid, None); (0x1c4a, 0x1c4c, Disallowed, None); (0x1c4d, 0x1c7d, Valid, None);
   (0x1c7e, 0x1c7f, Valid, Some []); (0x1c80, 0x1c80, Mapped, Some [0x432]); (0x1c81, 0x1c81, Mapped, Some [0x434]);
   (0x1c82, 0x1c82, Mapped, Some [0x43e]); (0x1c83, 0x1c83, Mapped, Some [0x441]); (0x1c84, 0x1c85, Mapped, Some [0x442]);
   (0x1c86, 0x1c86, Mapped, Some [0x44a]); (0x1c87, 0x1c87, Mapped, Some [0x463]); (0x1c88, 0x1c88, Mapped, Some [0xa64b]);
   (0x1c89, 0x1c8f, Disallowed, None); (0x1c90, 0x1c90, Mapped, Some [0x10d0]); (0x1c91, 0x1c91, Mapped, Some [0x10d1]);
   (0x1c92, 0x1c92, Mapped, Some [0x10d2]); (0x1c93, 0x1c93, Mapped, Some [0x10d3]); (0x1c94, 0x1c94, Mapped, Some [0x10d4]);
   (0x1c95, 0x1c95, Mapped, Some [0x10d5]); (0x1c96, 0x1c96, Mapped, Some [0x10d6]); (0x1c97, 0x1c97, Mapped, Some [0x10d7]);
   (0x1c98, 0x1c98, Mapped, Some [0x10d8]); (0x1c99, 0x1c99, Mapped, Some [0x10d9]); (0x1c9a, 0x1c9a, Mapped, Some [0x10da]);
   (0x1c9b, 0x1c9b, Mapped, Some [0x10db]); (0x1c9c, 0x1c9c, Mapped, Some [0x10dc]); (0x1c9d, 0x1c9d, Mapped, Some [0x10dd]);
   (0x1c9e, 0x1c9e, Mapped, Some [0x10de]); (0x1c9f, 0x1c9f, Mapped, Some [0x10df]); (0x1ca0, 0x1ca0, Mapped, Some [0x10e0]);
   (0x1ca1, 0x1ca1, Mapped, Some [0x10e1]); (0x1ca2, 0x1ca2, Mapped, Some [0x10e2]); (0x1ca3, 0x1ca3, Mapped, Some [0x10e3]);
   (0x1ca4, 0x1ca4, Mapped, Some [0x10e4]); (0x1ca5, 0x1ca5, Mapped, Some [0x10e5]); (0x1ca6, 0x1ca6, Mapped, Some [0x10e6]);
   (0x1ca7, 0x1ca7, Mapped, Some [0x10e7]); (0x1ca8, 0x1ca8, Mapped, Some [0x10e8]); (0x1ca9, 0x1ca9, Mapped, Some [0x10e9]);
   (0x1caa, 0x1caa, Mapped, Some [0x10ea]); (0x1cab, 0x1cab, Mapped, Some [0x10eb]); (0x1cac, 0x1cac, Mapped, Some [0x10ec]);
   (0x1cad, 0x1cad, Mapped, Some [0x10ed]); (0x1cae, 0x1cae, Mapped, Some [0x10ee]); (0x1caf, 0x1caf, Mapped, Some [0x10ef]);
   (0x1cb0, 0x1cb0, Mapped, Some [0x10f0]); (0x1cb1, 0x1cb1, Mapped, Some [0x10f1]); (0x1cb2, 0x1cb2, Mapped, Some [0x10f2]);
   (0x1cb3, 0x1cb3, Mapped, Some [0x10f3]); (0x1cb4, 0x1cb4, Mapped, Some [0x10f4]); (0x1cb5, 0x1cb5, Mapped, Some [0x10f5]);
   (0x1cb6, 0x1cb6, Mapped, Some [0x10f6]); (0x1cb7, 0x1cb7, Mapped, Some [0x10f7]); (0x1cb8, 0x1cb8, Mapped, Some [0x10f8]);
   (0x1cb9, 0x1cb9, Mapped, Some [0x10f9]); (0x1cba, 0x1cba, Mapped, Some [0x10fa]); (0x1cbb, 0x1cbc, Disallowed, None);
   (0x1cbd, 0x1cbd, Mapped, Some [0x10fd]); (0x1cbe, 0x1cbe, Mapped, Some [0x10fe]); (0x1cbf, 0x1cbf, Mapped, Some [0x10ff]);
   (0x1cc0, 0x1cc7, Valid, Some []); (0x1cc8, 0x1ccf, Disallowed, None); (0x1cd0, 0x1cd2, Valid, None);
   (0x1cd3, 0x1cd3, Valid, Some []); (0x1cd4, 0x1cf2, Valid, None); (0x1cf3, 0x1cf6, Valid, None);
   (0x1cf7, 0x1cf7, Valid, None); (0x1cf8, 0x1cf9, Valid, None); (0x1cfa, 0x1cfa, Valid, None);
   (0x1cfb, 0x1cff, Disallowed, None); (0x1d00, 0x1d2b, Valid, None); (0x1d2c, 0x1d2c, Mapped, Some [0x61]);
   (0x1d2d, 0x1d2d, Mapped, Some [0xe6]); (0x1d2e, 0x1d2e, Mapped, Some [0x62]); (0x1d2f, 0x1d2f, Valid, None);
   (0x1d30, 0x1d30, Mapped, Some [0x64]); (0x1d31, 0x1d31, Mapped, Some [0x65]); (0x1d32, 0x1d32, Mapped, Some [0x1dd]);
   (0x1d33, 0x1d33, Mapped, Some [0x67]); (0x1d34, 0x1d34, Mapped, Some [0x68]); (0x1d35, 0x1d35, Mapped, Some [0x69]);
   (0x1d36, 0x1d36, Mapped, Some [0x6a]); (0x1d37, 0x1d37, Mapped, Some [0x6b]); (0x1d38, 0x1d38, Mapped, Some [0x6c]);
   (0x1d39, 0x1d39, Mapped, Some [0x6d]); (0x1d3a, 0x1d3a, Mapped, Some [0x6e]); (0x1d3b, 0x1d3b, Valid, None);
   (0x1d3c, 0x1d3c, Mapped, Some [0x6f]); (0x1d3d, 0x1d3d, Mapped, Some [0x223]); (0x1d3e, 0x1d3e, Mapped, Some [0x70]);
   (0x1d3f, 0x1d3f, Mapped, Some [0x72]); (0x1d40, 0x1d40, Mapped, Some [0x74]); (0x1d41, 0x1d41, Mapped, Some [0x75]);
   (0x1d42, 0x1d42, Mapped, Some [0x77]); (0x1d43, 0x1d43, Mapped, Some [0x61]); (0x1d44, 0x1d44, Mapped, Some [0x250]);
   (0x1d45, 0x1d45, Mapped, Some [0x251]); (0x1d46, 0x1d46, Mapped, Some [0x1d02]); (0x1d47, 0x1d47, Mapped, Some [0x62]);
   (0x1d48, 0x1d48, Mapped, Some [0x64]); (0x1d49, 0x1d49, Mapped, Some [0x65]); (0x1d4a, 0x1d4a, Mapped, Some [0x259]);
   (0x1d4b, 0x1d4b, Mapped, Some [0x25b]); (0x1d4c, 0x1d4c, Mapped, Some [0x25c]); (0x1d4d, 0x1d4d, Mapped, Some [0x67]);
   (0x1d4e, 0x1d4e, Valid, None); (0x1d4f, 0x1d4f, Mapped, Some [0x6b]); (0x1d50, 0x1d50, Mapped, Some [0x6d]);
   (0x1d51, 0x1d51, Mapped, Some [0x14b]); (0x1d52, 0x1d52, Mapped, Some [0x6f]); (0x1d53, 0x1d53, Mapped, Some [0x254]);
   (0x1d54, 0x1d54, Mapped, Some [0x1d16]); (0x1d55, 0x1d55, Mapped, Some [0x1d17]); (0x1d56, 0x1d56, Mapped, Some [0x70]);
   (0x1d57, 0x1d57, Mapped, Some [0x74]); (0x1d58, 0x1d58, Mapped, Some [0x75]); (0x1d59, 0x1d59, Mapped, Some [0x1d1d]);
   (0x1d5a, 0x1d5a, Mapped, Some [0x26f]); (0x1d5b, 0x1d5b, Mapped, Some [0x76]); (0x1d5c, 0x1d5c, Mapped, Some [0x1d25]);
   (0x1d5d, 0x1d5d, Mapped, Some [0x3b2]); (0x1d5e, 0x1d5e, Mapped, Some [0x3b3]); (0x1d5f, 0x1d5f, Mapped, Some [0x3b4]);
   (0x1d60, 0x1d60, Mapped, Some [0x3c6]); (0x1d61, 0x1d61, Mapped, Some [0x3c7]); (0x1d62, 0x1d62, Mapped, Some [0x69]);
   (0x1d63, 0x1d63, Mapped, Some [0x72]); (0x1d64, 0x1d64, Mapped, Some [0x75]); (0x1d65, 0x1d65, Mapped, Some [0x76]);
   (0x1d66, 0x1d66, Mapped, Some [0x3b2]); (0x1d67, 0x1d67, Mapped, Some [0x3b3]); (0x1d68, 0x1d68, Mapped, Some [0x3c1]);
   (0x1d69, 0x1d69, Mapped, Some [0x3c6]); (0x1d6a, 0x1d6a, Mapped, Some [0x3c7]); (0x1d6b, 0x1d6b, Valid, None);
   (0x1d6c, 0x1d77, Valid, None); (0x1d78, 0x1d78, Mapped, Some [0x43d]); (0x1d79, 0x1d9a, Valid, None);
   (0x1d9b, 0x1d9b, Mapped, Some [0x252]); (0x1d9c, 0x1d9c, Mapped, Some [0x63]); (0x1d9d, 0x1d9d, Mapped, Some [0x255]);
   (0x1d9e, 0x1d9e, Mapped, Some [0xf0]); (0x1d9f, 0x1d9f, Mapped, Some [0x25c]); (0x1da0, 0x1da0, Mapped, Some [0x66]);
   (0x1da1, 0x1da1, Mapped, Some [0x25f]); (0x1da2, 0x1da2, Mapped, Some [0x261]); (0x1da3, 0x1da3, Mapped, Some [0x265]);
   (0x1da4, 0x1da4, Mapped, Some [0x268]); (0x1da5, 0x1da5, Mapped, Some [0x269]); (0x1da6, 0x1da6, Mapped, Some [0x26a]);
   (0x1da7, 0x1da7, Mapped, Some [0x1d7b]); (0x1da8, 0x1da8, Mapped, Some [0x29d]); (0x1da9, 0x1da9, Mapped, Some [0x26d]);
   (0x1daa, 0x1daa, Mapped, Some [0x1d85]); (0x1dab, 0x1dab, Mapped, Some [0x29f]); (0x1dac, 0x1dac, Mapped, Some [0x271]);
   (0x1dad, 0x1dad, Mapped, Some [0x270]); (0x1dae, 0x1dae, Mapped, Some [0x272]); (0x1daf, 0x1daf, Mapped, Some [0x273]);
   (0x1db0, 0x1db0, Mapped, Some [0x274]); (0x1db1, 0x1db1, Mapped, Some [0x275]); (0x1db2, 0x1db2, Mapped, Some [0x278]);
   (0x1db3, 0x1db3, Mapped, Some [0x282]); (0x1db4, 0x1db4, Mapped, Some [0x283]); (0x1db5, 0x1db5, Mapped, Some [0x1ab]);
   (0x1db6, 0x1db6, Mapped, Some [0x289]); (0x1db7, 0x1db7, Mapped, Some [0x28a]); (0x1db8, 0x1db8, Mapped, Some [0x1d1c]);
   (0x1db9, 0x1db9, Mapped, Some [0x28b]); (0x1dba, 0x1dba, Mapped, Some [0x28c]); (0x1dbb, 0x1dbb, Mapped, Some [0x7a]);
   (0x1dbc, 0x1dbc, Mapped, Some [0x290]); (0x1dbd, 0x1dbd, Mapped, Some [0x291]); (0x1dbe, 0x1dbe, Mapped, Some [0x292]);
   (0x1dbf, 0x1dbf, Mapped, Some [0x3b8]); (0x1dc0, 0x1dc3, Valid, None); (0x1dc4, 0x1dca, Valid, None);
   (0x1dcb, 0x1de6, Valid, None); (0x1de7, 0x1df5, Valid, None); (0x1df6, 0x1df9, Valid, None);
   (0x1dfa, 0x1dfa, Disallowed, None); (0x1dfb, 0x1dfb, Valid, None); (0x1dfc, 0x1dfc, Valid, None);
   (0x1dfd, 0x1dfd, Valid, None); (0x1dfe, 0x1dff, Valid, None); (0x1e00, 0x1e00, Mapped, Some [0x1e01]);
   (0x1e01, 0x1e01, Valid, None); (0x1e02, 0x1e02, Mapped, Some [0x1e03]); (0x1e03, 0x1e03, Valid, None);
   (0x1e04, 0x1e04, Mapped, Some [0x1e05]); (0x1e05, 0x1e05, Valid, None); (0x1e06, 0x1e06, Mapped, Some [0x1e07]);
   (0x1e07, 0x1e07, Valid, None); (0x1e08, 0x1e08, Mapped, Some [0x1e09]); (0x1e09, 0x1e09, Valid, None);
   (0x1e0a, 0x1e0a, Mapped, Some [0x1e0b]); (0x1e0b, 0x1e0b, Valid, None); (0x1e0c, 0x1e0c, Mapped, Some [0x1e0d]);
   (0x1e0d, 0x1e0d, Valid, None); (0x1e0e, 0x1e0e, Mapped, Some [0x1e0f]); (0x1e0f, 0x1e0f, Valid, None);
   (0x1e10, 0x1e10, Mapped, Some [0x1e11]); (0x1e11, 0x1e11, Valid, None); (0x1e12, 0x1e12, Mapped, Some [0x1e13]);
   (0x1e13, 0x1e13, Valid, None); (0x1e14, 0x1e14, Mapped, Some [0x1e15]); (0x1e15, 0x1e15, Valid, None);
   (0x1e16, 0x1e16, Mapped, Some [0x1e17]); (0x1e17, 0x1e17, Valid, None); (0x1e18, 0x1e18, Mapped, Some [0x1e19]);
   (0x1e19, 0x1e19, Valid, None); (0x1e1a, 0x1e1a, Mapped, Some [0x1e1b]); (0x1e1b, 0x1e1b, Valid, None);
   (0x1e1c, 0x1e1c, Mapped, Some [0x1e1d]); (0x1e1d, 0x1e1d, Valid, None); (0x1e1e, 0x1e1e, Mapped, Some [0x1e1f]);
   (0x1e1f, 0x1e1f, Valid, None); (0x1e20, 0x1e20, Mapped, Some [0x1e21]); (0x1e21, 0x1e21, Valid, None);
   (0x1e22, 0x1e22, Mapped, Some [0x1e23]); (0x1e23, 0x1e23, Valid, None); (0x1e24, 0x1e24, Mapped, Some [0x1e25]);
   (0x1e25, 0x1e25, Valid, None); (0x1e26, 0x1e26, Mapped, Some [0x1e27]); (0x1e27, 0x1e27, Valid, None);
   (0x1e28, 0x1e28, Mapped, Some [0x1e29]); (0x1e29, 0x1e29, Valid, None); (0x1e2a, 0x1e2a, Mapped, Some [0x1e2b]);
   (0x1e2b, 0x1e2b, Valid, None); (0x1e2c, 0x1e2c, Mapped, Some [0x1e2d]); (0x1e2d, 0x1e2d, Valid, None);
   (0x1e2e, 0x1e2e, Mapped, Some [0x1e2f]); (0x1e2f, 0x1e2f, Valid, None); (0x1e30, 0x1e30, Mapped, Some [0x1e31]);
   (0x1e31, 0x1e31, Valid, None); (0x1e32, 0x1e32, Mapped, Some [0x1e33]); (0x1e33, 0x1e33, Valid, None);
   (0x1e34, 0x1e34, Mapped, Some [0x1e35]); (0x1e35, 0x1e35, Valid, None); (0x1e36, 0x1e36, Mapped, Some [0x1e37]);
   (0x1e37, 0x1e37, Valid, None); (0x1e38, 0x1e38, Mapped, Some [0x1e39]); (0x1e39, 0x1e39, Valid, None);
   (0x1e3a, 0x1e3a, Mapped, Some [0x1e3b]); (0x1e3b, 0x1e3b, Valid, None); (0x1e3c, 0x1e3c, Mapped, Some [0x1e3d]);
   (0x1e3d, 0x1e3d, Valid, None); (0x1e3e, 0x1e3e, Mapped, Some [0x1e3f]); (0x1e3f, 0x1e3f, Valid, None);
   (0x1e40, 0x1e40, Mapped, Some [0x1e41]); (0x1e41, 0x1e41, Valid, None); (0x1e42, 0x1e42, Mapped, Some [0x1e43]);
   (0x1e43, 0x1e43, Valid, None); (0x1e44, 0x1e44, Mapped, Some [0x1e45]); (0x1e45, 0x1e45, Valid, None);
   (0x1e46, 0x1e46, Mapped, Some [0x1e47]); (0x1e47, 0x1e47, Valid, None); (0x1e48, 0x1e48, Mapped, Some [0x1e49]);
   (0x1e49, 0x1e49, Valid, None); (0x1e4a, 0x1e4a, Mapped, Some [0x1e4b]); (0x1e4b, 0x1e4b, Valid, None);
   (0x1e4c, 0x1e4c, Mapped, Some [0x1e4d]); (0x1e4d, 0x1e4d, Valid, None); (0x1e4e, 0x1e4e, Mapped, Some [0x1e4f]);
   (0x1e4f, 0x1e4f, Valid, None); (0x1e50, 0x1e50, Mapped, Some [0x1e51]); (0x1e51, 0x1e51, Valid, None);
   (0x1e52, 0x1e52, Mapped, Some [0x1e53]); (0x1e53, 0x1e53, Valid, None); (0x1e54, 0x1e54, Mapped, Some [0x1e55]);
   (0x1e55, 0x1e55, Valid, None); (0x1e56, 0x1e56, Mapped, Some [0x1e57]); (0x1e57, 0x1e57, Valid, None);
   (0x1e58, 0x1e58, Mapped, Some [0x1e59]); (0x1e59, 0x1e59, Valid, None); (0x1e5a, 0x1e5a, Mapped, Some [0x1e5b]);
   (0x1e5b, 0x1e5b, Valid, None); (0x1e5c, 0x1e5c, Mapped, Some [0x1e5d]); (0x1e5d, 0x1e5d, Valid, None);
   (0x1e5e, 0x1e5e, Mapped, Some [0x1e5f]); (0x1e5f, 0x1e5f, Valid, None); (0x1e60, 0x1e60, Mapped, Some [0x1e61]);
   (0x1e61, 0x1e61, Valid, None); (0x1e62, 0x1e62, Mapped, Some [0x1e63]); (0x1e63, 0x1e63, Valid, None);
   (0x1e64, 0x1e64, Mapped, Some [0x1e65]); (0x1e65, 0x1e65, Valid, None); (0x1e66, 0x1e66, Mapped, Some [0x1e67]);
   (0x1e67, 0x1e67, Valid, None); (0x1e68, 0x1e68, Mapped, Some [0x1e69]); (0x1e69, 0x1e69, Valid, None);
   (0x1e6a, 0x1e6a, Mapped, Some [0x1e6b]); (0x1e6b, 0x1e6b, Valid, None); (0x1e6c, 0x1e6c, Mapped, Some [0x1e6d]);
   (0x1e6d, 0x1e6d, Valid, None); (0x1e6e, 0x1e6e, Mapped, Some [0x1e6f]); (0x1e6f, 0x1e6f, Valid, None);
   (0x1e70, 0x1e70, Mapped, Some [0x1e71]); (0x1e71, 0x1e71, Valid, None); (0x1e72, 0x1e72, Mapped, Some [0x1e73]);
   (0x1e73, 0x1e73, Valid, None); (0x1e74, 0x1e74, Mapped, Some [0x1e75]); (0x1e75, 0x1e75, Valid, None);
   (0x1e76, 0x1e76, Mapped, Some [0x1e77]); (0x1e77, 0x1e77, Valid, None); (0x1e78, 0x1e78, Mapped, Some [0x1e79]);
   (0x1e79, 0x1e79, Valid, None); (0x1e7a, 0x1e7a, Mapped, Some [0x1e7b]); (0x1e7b, 0x1e7b, Valid, None);
   (0x1e7c, 0x1e7c, Mapped, Some [0x1e7d]); (0x1e7d, 0x1e7d, Valid, None); (0x1e7e, 0x1e7e, Mapped, Some [0x1e7f]);
   (0x1e7f, 0x1e7f, Valid, None); (0x1e80, 0x1e80, Mapped, Some [0x1e81]); (0x1e81, 0x1e81, Valid, None);
   (0x1e82, 0x1e82, Mapped, Some [0x1e83]); (0x1e83, 0x1e83, Valid, None); (0x1e84, 0x1e84, Mapped, Some [0x1e85]);
   (0x1e85, 0x1e85, Valid, None); (0x1e86, 0x1e86, Mapped, Some [0x1e87]); (0x1e87, 0x1e87, Valid, None);
   (0x1e88, 0x1e88, Mapped, Some [0x1e89]); (0x1e89, 0x1e89, Valid, None); (0x1e8a, 0x1e8a, Mapped, Some [0x1e8b]);
   (0x1e8b, 0x1e8b, Valid, None); (0x1e8c, 0x1e8c, Mapped, Some [0x1e8d]); (0x1e8d, 0x1e8d, Valid, None);
   (0x1e8e, 0x1e8e, Mapped, Some [0x1e8f]); (0x1e8f, 0x1e8f, Valid, None); (0x1e90, 0x1e90, Mapped, Some [0x1e91]);
   (0x1e91, 0x1e91, Valid, None); (0x1e92, 0x1e92, Mapped, Some [0x1e93]); (0x1e93, 0x1e93, Valid, None);
   (0x1e94, 0x1e94, Mapped, Some [0x1e95]); (0x1e95, 0x1e99, Valid, None); (0x1e9a, 0x1e9a, Mapped, Some [0x61; 0x2be]);
   (0x1e9b, 0x1e9b, Mapped, Some [0x1e61]); (0x1e9c, 0x1e9d, Valid, None); (0x1e9e, 0x1e9e, Mapped, Some [0x73; 0x73]);
   (0x1e9f, 0x1e9f, Valid, None); (0x1ea0, 0x1ea0, Mapped, Some [0x1ea1]); (0x1ea1, 0x1ea1, Valid, None);
   (0x1ea2, 0x1ea2, Mapped, Some [0x1ea3]); (0x1ea3, 0x1ea3, Valid, None); (0x1ea4, 0x1ea4, Mapped, Some [0x1ea5]);
   (0x1ea5, 0x1ea5, Valid, None); (0x1ea6, 0x1ea6, Mapped, Some [0x1ea7]); (0x1ea7, 0x1ea7, Valid, None);
   (0x1ea8, 0x1ea8, Mapped, Some [0x1ea9]); (0x1ea9, 0x1ea9, Valid, None); (0x1eaa, 0x1eaa, Mapped, Some [0x1eab]);
   (0x1eab, 0x1eab, Valid, None); (0x1eac, 0x1eac, Mapped, Some [0x1ead]); (0x1ead, 0x1ead, Valid, None);
   (0x1eae, 0x1eae, Mapped, Some [0x1eaf]); (0x1eaf, 0x1eaf, Valid, None); (0x1eb0, 0x1eb0, Mapped, Some [0x1eb1]);
   (0x1eb1, 0x1eb1, Valid, None); (0x1eb2, 0x1eb2, Mapped, Some [0x1eb3]); (0x1eb3, 0x1eb3, Valid, None);
   (0x1eb4, 0x1eb4, Mapped, Some [0x1eb5]); (0x1eb5, 0x1eb5, Valid, None); (0x1eb6, 0x1eb6, Mapped, Some [0x1eb7]);
   (0x1eb7, 0x1eb7, Valid, None); (0x1eb8, 0x1eb8, Mapped, Some [0x1eb9]); (0x1eb9, 0x1eb9, Valid, None);
   (0x1eba, 0x1eba, Mapped, Some [0x1ebb]); (0x1ebb, 0x1ebb, Valid, None); (0x1ebc, 0x1ebc, Mapped, Some [0x1ebd]);
   (0x1ebd, 0x1ebd, Valid, None); (0x1ebe, 0x1ebe, Mapped, Some [0x1ebf]); (0x1ebf, 0x1ebf, Valid, None);
   (0x1ec0, 0x1ec0, Mapped, Some [0x1ec1]); (0x1ec1, 0x1ec1, Valid, None); (0x1ec2, 0x1ec2, Mapped, Some [0x1ec3]);
   (0x1ec3, 0x1ec3, Valid, None); (0x1ec4, 0x1ec4, Mapped, Some [0x1ec5]); (0x1ec5, 0x1ec5, Valid, None);
   (0x1ec6, 0x1ec6, Mapped, Some [0x1ec7]); (0x1ec7, 0x1ec7, Valid, None); (0x1ec8, 0x1ec8, Mapped, Some [0x1ec9]);
   (0x1ec9, 0x1ec9, Valid, None); (0x1eca, 0x1eca, Mapped, Some [0x1ecb]); (0x1ecb, 0x1ecb, Valid, None);
   (0x1ecc, 0x1ecc, Mapped, Some [0x1ecd]); (0x1ecd, 0x1ecd, Valid, None); (0x1ece, 0x1ece, Mapped, Some [0x1ecf]);
   (0x1ecf, 0x1ecf, Valid, None); (0x1ed0, 0x1ed0, Mapped, Some [0x1ed1]); (0x1ed1, 0x1ed1, Valid, None);
   (0x1ed2, 0x1ed2, Mapped, Some [0x1ed3]); (0x1ed3, 0x1ed3, Valid, None); (0x1ed4, 0x1ed4, Mapped, Some [0x1ed5]);
   (0x1ed5, 0x1ed5, Valid, None); (0x1ed6, 0x1ed6, Mapped, Some [0x1ed7]); (0x1ed7, 0x1ed7, Valid, None);
   (0x1ed8, 0x1ed8, Mapped, Some [0x1ed9]); (0x1ed9, 0x1ed9, Valid, None); (0x1eda, 0x1eda, Mapped, Some [0x1edb]);
   (0x1edb, 0x1edb, Valid, None); (0x1edc, 0x1edc, Mapped, Some [0x1edd]); (0x1edd, 0x1edd, Valid, None);
   (0x1ede, 0x1ede, Mapped, Some [0x1edf]); (0x1edf, 0x1edf, Valid, None); (0x1ee0, 0x1ee0, Mapped, Some [0x1ee1]);
   (0x1ee1, 0x1ee1, Valid, None); (0x1ee2, 0x1ee2, Mapped, Some [0x1ee3]); (0x1ee3, 0x1ee3, Valid, None);
   (0x1ee4, 0x1ee4, Mapped, Some [0x1ee5]); (0x1ee5, 0x1ee5, Valid, None); (0x1ee6, 0x1ee6, Mapped, Some [0x1ee7]);
   (0x1ee7, 0x1ee7, Valid, None); (0x1ee8, 0x1ee8, Mapped, Some [0x1ee9]); (0x1ee9, 0x1ee9, Valid, None);
   (0x1eea, 0x1eea, Mapped, Some [0x1eeb]); (0x1eeb, 0x1eeb, Valid, None); (0x1eec, 0x1eec, Mapped, Some [0x1eed]);
   (0x1eed, 0x1eed, Valid, None); (0x1eee, 0x1eee, Mapped, Some [0x1eef]); (0x1eef, 0x1eef, Valid, None);
   (0x1ef0, 0x1ef0, Mapped, Some [0x1ef1]); (0x1ef1, 0x1ef1, Valid, None); (0x1ef2, 0x1ef2, Mapped, Some [0x1ef3]);
   (0x1ef3, 0x1ef3, Valid, None); (0x1ef4, 0x1ef4, Mapped, Some [0x1ef5]); (0x1ef5, 0x1ef5, Valid, None);
   (0x1ef6, 0x1ef6, Mapped, Some [0x1ef7]); (0x1ef7, 0x1ef7, Valid, None); (0x1ef8, 0x1ef8, Mapped, Some [0x1ef9]);
   (0x1ef9, 0x1ef9, Valid, None); (0x1efa, 0x1efa, Mapped, Some [0x1efb]); (0x1efb, 0x1efb, Valid, None);
   (0x1efc, 0x1efc, Mapped, Some [0x1efd]); (0x1efd, 0x1efd, Valid, None); (0x1efe, 0x1efe, Mapped, Some [0x1eff]);
   (0x1eff, 0x1eff, Valid, None); (0x1f00, 0x1f07, Valid, None); (0x1f08, 0x1f08, Mapped, Some [0x1f00]);
   (0x1f09, 0x1f09, Mapped, Some [0x1f01]); (0x1f0a, 0x1f0a, Mapped, Some [0x1f02]); (0x1f0b, 0x1f0b, Mapped, Some [0x1f03]);
   (0x1f0c, 0x1f0c, Mapped, Some [0x1f04]); (0x1f0d, 0x1f0d, Mapped, Some [0x1f05]); (0x1f0e, 0x1f0e, Mapped, Some [0x1f06]);
   (0x1f0f, 0x1f0f, Mapped, Some [0x1f07]); (0x1f10, 0x1f15, Valid, None); (0x1f16, 0x1f17, Disallowed, None);
   (0x1f18, 0x1f18, Mapped, Some [0x1f10]); (0x1f19, 0x1f19, Mapped, Some [0x1f11]); (0x1f1a, 0x1f1a, Mapped, Some [0x1f12]);
   (0x1f1b, 0x1f1b, Mapped, Some [0x1f13]); (0x1f1c, 0x1f1c, Mapped, Some [0x1f14]); (0x1f1d, 0x1f1d, Mapped, Some [0x1f15]);
   (0x1f1e, 0x1f1f, Disallowed, None); (0x1f20, 0x1f27, Valid, None); (0x1f28, 0x1f28, Mapped, Some [0x1f20]);
   (0x1f29, 0x1f29, Mapped, Some [0x1f21]); (0x1f2a, 0x1f2a, Mapped, Some [0x1f22]); (0x1f2b, 0x1f2b, Mapped, Some [0x1f23]);
   (0x1f2c, 0x1f2c, Mapped, Some [0x1f24]); (0x1f2d, 0x1f2d, Mapped, Some [0x1f25]); (0x1f2e, 0x1f2e, Mapped, Some [0x1f26]);
   (0x1f2f, 0x1f2f, Mapped, Some [0x1f27]); (0x1f30, 0x1f37, Valid, None); (0x1f38, 0x1f38, Mapped, Some [0x1f30]);
   (0x1f39, 0x1f39, Mapped, Some [0x1f31]); (0x1f3a, 0x1f3a, Mapped, Some [0x1f32]); (0x1f3b, 0x1f3b, Mapped, Some [0x1f33]);
   (0x1f3c, 0x1f3c, Mapped, Some [0x1f34]); (0x1f3d, 0x1f3d, Mapped, Some [0x1f35]); (0x1f3e, 0x1f3e, Mapped, Some [0x1f36]);
   (0x1f3f, 0x1f3f, Mapped, Some [0x1f37]); (0x1f40, 0x1f45, Valid, None); (0x1f46, 0x1f47, Disallowed, None);
   (0x1f48, 0x1f48, Mapped, Some [0x1f40]); (0x1f49, 0x1f49, Mapped, Some [0x1f41]); (0x1f4a, 0x1f4a, Mapped, Some [0x1f42]);
   (0x1f4b, 0x1f4b, Mapped, Some [0x1f43]); (0x1f4c, 0x1f4c, Mapped, Some [0x1f44]); (0x1f4d, 0x1f4d, Mapped, Some [0x1f45]);
   (0x1f4e, 0x1f4f, Disallowed, None); (0x1f50, 0x1f57, Valid, None); (0x1f58, 0x1f58, Disallowed, None);
   (0x1f59, 0x1f59, Mapped, Some [0x1f51]); (0x1f5a, 0x1f5a, Disallowed, None); (0x1f5b, 0x1f5b, Mapped, Some [0x1f53]);
   (0x1f5c, 0x1f5c, Disallowed, None); (0x1f5d, 0x1f5d, Mapped, Some [0x1f55]); (0x1f5e, 0x1f5e, Disallowed, None);
   (0x1f5f, 0x1f5f, Mapped, Some [0x1f57]); (0x1f60, 0x1f67, Valid, None); (0x1f68, 0x1f68, Mapped, Some [0x1f60]);
   (0x1f69, 0x1f69, Mapped, Some [0x1f61]); (0x1f6a, 0x1f6a, Mapped, Some [0x1f62]); (0x1f6b, 0x1f6b, Mapped, Some [0x1f63]);
   (0x1f6c, 0x1f6c, Mapped, Some [0x1f64]); (0x1f6d, 0x1f6d, Mapped, Some [0x1f65]); (0x1f6e, 0x1f6e, Mapped, Some [0x1f66]);
   (0x1f6f, 0x1f6f, Mapped, Some [0x1f67]); (0x1f70, 0x1f70, Valid, None); (0x1f71, 0x1f71, Mapped, Some [0x3ac]);
   (0x1f72, 0x1f72, Valid, None); (0x1f73, 0x1f73, Mapped, Some [0x3ad]); (0x1f74, 0x1f74, Valid, None);
   (0x1f75, 0x1f75, Mapped, Some [0x3ae]); (0x1f76, 0x1f76, Valid, None); (0x1f77, 0x1f77, Mapped, Some [0x3af]);
   (0x1f78, 0x1f78, Valid, None); (0x1f79, 0x1f79, Mapped, Some [0x3cc]); (0x1f7a, 0x1f7a, Valid, None);
   (0x1f7b, 0x1f7b, Mapped, Some [0x3cd]); (0x1f7c, 0x1f7c, Valid, None); (0x1f7d, 0x1f7d, Mapped, Some [0x3ce]);
   (0x1f7e, 0x1f7f, Disallowed, None); (0x1f80, 0x1f80, Mapped, Some [0x1f00; 0x3b9]); (0x1f81, 0x1f81, Mapped, Some [0x1f01; 0x3b9]);
   (0x1f82, 0x1f82, Mapped, Some [0x1f02; 0x3b9]); (0x1f83, 0x1f83, Mapped, Some [0x1f03; 0x3b9]); (0x1f84, 0x1f84, Mapped, Some [0x1f04; 0x3b9]);
   (0x1f85, 0x1f85, Mapped, Some [0x1f05; 0x3b9]); (0x1f86, 0x1f86, Mapped, Some [0x1f06; 0x3b9]); (0x1f87, 0x1f87, Mapped, Some [0x1f07; 0x3b9]);
   (0x1f88, 0x1f88, Mapped, Some [0x1f00; 0x3b9]); (0x1f89, 0x1f89, Mapped, Some [0x1f01; 0x3b9]); (0x1f8a, 0x1f8a, Mapped, Some [0x1f02; 0x3b9]);
   (0x1f8b, 0x1f8b, Mapped, Some [0x1f03; 0x3b9]); (0x1f8c, 0x1f8c, Mapped, Some [0x1f04; 0x3b9]); (0x1f8d, 0x1f8d, Mapped, Some [0x1f05; 0x3b9]);
   (0x1f8e, 0x1f8e, Mapped, Some [0x1f06; 0x3b9]); (0x1f8f, 0x1f8f, Mapped, Some [0x1f07; 0x3b9]); (0x1f90, 0x1f90, Mapped, Some [0x1f20; 0x3b9]);
   (0x1f91, 0x1f91, Mapped, Some [0x1f21; 0x3b9]); (0x1f92, 0x1f92, Mapped, Some [0x1f22; 0x3b9]); (0x1f93, 0x1f93, Mapped, Some [0x1f23; 0x3b9]);
   (0x1f94, 0x1f94, Mapped, Some [0x1f24; 0x3b9]); (0x1f95, 0x1f95, Mapped, Some [0x1f25; 0x3b9]); (0x1f96, 0x1f96, Mapped, Some [0x1f26; 0x3b9]);
   (0x1f97, 0x1f97, Mapped, Some [0x1f27; 0x3b9]); (0x1f98, 0x1f98, Mapped, Some [0x1f20; 0x3b9]); (0x1f99, 0x1f99, Mapped, Some [0x1f21; 0x3b9]);
   (0x1f9a, 0x1f9a, Mapped, Some [0x1f22; 0x3b9]); (0x1f9b, 0x1f9b, Mapped, Some [0x1f23; 0x3b9]); (0x1f9c, 0x1f9c, Mapped, Some [0x1f24; 0x3b9]);
   (0x1f9d, 0x1f9d, Mapped, Some [0x1f25; 0x3b9]); (0x1f9e, 0x1f9e, Mapped, Some [0x1f26; 0x3b9]); (0x1f9f, 0x1f9f, Mapped, Some [0x1f27; 0x3b9]);
   (0x1fa0, 0x1fa0, Mapped, Some [0x1f60; 0x3b9]); (0x1fa1, 0x1fa1, Mapped, Some [0x1f61; 0x3b9]); (0x1fa2, 0x1fa2, Mapped, Some [0x1f62; 0x3b9]);
   (0x1fa3, 0x1fa3, Mapped, Some [0x1f63; 0x3b9]); (0x1fa4, 0x1fa4, Mapped, Some [0x1f64; 0x3b9]); (0x1fa5, 0x1fa5, Mapped, Some [0x1f65; 0x3b9]);
   (0x1fa6, 0x1fa6, Mapped, Some [0x1f66; 0x3b9]); (0x1fa7, 0x1fa7, Mapped, Some [0x1f67; 0x3b9]); (0x1fa8, 0x1fa8, Mapped, Some [0x1f60; 0x3b9]);
   (0x1fa9, 0x1fa9, Mapped, Some [0x1f61; 0x3b9]); (0x1faa, 0x1faa, Mapped, Some [0x1f62; 0x3b9]); (0x1fab, 0x1fab, Mapped, Some [0x1f63; 0x3b9]);
   (0x1fac, 0x1fac, Mapped, Some [0x1f64; 0x3b9]); (0x1fad, 0x1fad, Mapped, Some [0x1f65; 0x3b9]); (0x1fae, 0x1fae, Mapped, Some [0x1f66; 0x3b9]);
   (0x1faf, 0x1faf, Mapped, Some [0x1f67; 0x3b9]); (0x1fb0, 0x1fb1, Valid, None); (0x1fb2, 0x1fb2, Mapped, Some [0x1f70; 0x3b9]);
   (0x1fb3, 0x1fb3, Mapped, Some [0x3b1; 0x3b9]); (0x1fb4, 0x1fb4, Mapped, Some [0x3ac; 0x3b9]); (0x1fb5, 0x1fb5, Disallowed, None);
   (0x1fb6, 0x1fb6, Valid, None); (0x1fb7, 0x1fb7, Mapped, Some [0x1fb6; 0x3b9]); (0x1fb8, 0x1fb8, Mapped, Some [0x1fb0]);
   (0x1fb9, 0x1fb9, Mapped, Some [0x1fb1]); (0x1fba, 0x1fba, Mapped, Some [0x1f70]); (0x1fbb, 0x1fbb, Mapped, Some [0x3ac]);
   (0x1fbc, 0x1fbc, Mapped, Some [0x3b1; 0x3b9]); (0x1fbd, 0x1fbd, Std3_mapped, Some [0x20; 0x313]); (0x1fbe, 0x1fbe, Mapped, Some [0x3b9]);
   (0x1fbf, 0x1fbf, Std3_mapped, Some [0x20; 0x313]); (0x1fc0, 0x1fc0, Std3_mapped, Some [0x20; 0x342]); (0x1fc1, 0x1fc1, Std3_mapped, Some [0x20; 0x308; 0x342]);
   (0x1fc2, 0x1fc2, Mapped, Some [0x1f74; 0x3b9]); (0x1fc3, 0x1fc3, Mapped, Some [0x3b7; 0x3b9]); (0x1fc4, 0x1fc4, Mapped, Some [0x3ae; 0x3b9]);
   (0x1fc5, 0x1fc5, Disallowed, None); (0x1fc6, 0x1fc6, Valid, None); (0x1fc7, 0x1fc7, Mapped, Some [0x1fc6; 0x3b9]);
   (0x1fc8, 0x1fc8, Mapped, Some [0x1f72]); (0x1fc9, 0x1fc9, Mapped, Some [0x3ad]); (0x1fca, 0x1fca, Mapped, Some [0x1f74]);
   (0x1fcb, 0x1fcb, Mapped, Some [0x3ae]); (0x1fcc, 0x1fcc, Mapped, Some [0x3b7; 0x3b9]); (0x1fcd, 0x1fcd, Std3_mapped, Some [0x20; 0x313; 0x300]);
   (0x1fce, 0x1fce, Std3_mapped, Some [0x20; 0x313; 0x301]); (0x1fcf, 0x1fcf, Std3_mapped, Some [0x20; 0x313; 0x342]); (0x1fd0, 0x1fd2, Valid, None);
   (0x1fd3, 0x1fd3, Mapped, Some [0x390]); (0x1fd4, 0x1fd5, Disallowed, None); (0x1fd6, 0x1fd7, Valid, None);
   (0x1fd8, 0x1fd8, Mapped, Some [0x1fd0]); (0x1fd9, 0x1fd9, Mapped, Some [0x1fd1]); (0x1fda, 0x1fda, Mapped, Some [0x1f76]);
   (0x1fdb, 0x1fdb, Mapped, Some [0x3af]); (0x1fdc, 0x1fdc, Disallowed, None); (0x1fdd, 0x1fdd, Std3_mapped, Some [0x20; 0x314; 0x300]);
   (0x1fde, 0x1fde, Std3_mapped, Some [0x20; 0x314; 0x301]); (0x1fdf, 0x1fdf, Std3_mapped, Some [0x20; 0x314; 0x342]); (0x1fe0, 0x1fe2, Valid, None);
   (0x1fe3, 0x1fe3, Mapped, Some [0x3b0]); (0x1fe4, 0x1fe7, Valid, None); (0x1fe8, 0x1fe8, Mapped, Some [0x1fe0]);
   (0x1fe9, 0x1fe9, Mapped, Some [0x1fe1]); (0x1fea, 0x1fea, Mapped, Some [0x1f7a]); (0x1feb, 0x1feb, Mapped, Some [0x3cd]);
   (0x1fec, 0x1fec, Mapped, Some [0x1fe5]); (0x1fed, 0x1fed, Std3_mapped, Some [0x20; 0x308; 0x300]); (0x1fee, 0x1fee, Std3_mapped, Some [0x20; 0x308; 0x301]);
   (0x1fef, 0x1fef, Std3_mapped, Some [0x60]); (0x1ff0, 0x1ff1, Disallowed, None); (0x1ff2, 0x1ff2, Mapped, Some [0x1f7c; 0x3b9]);
   (0x1ff3, 0x1ff3, Mapped, Some [0x3c9; 0x3b9]); (0x1ff4, 0x1ff4, Mapped, Some [0x3ce; 0x3b9]); (0x1ff5, 0x1ff5, Disallowed, None);
   (0x1ff6, 0x1ff6, Valid, None); (0x1ff7, 0x1ff7, Mapped, Some [0x1ff6; 0x3b9]); (0x1ff8, 0x1ff8, Mapped, Some [0x1f78]);
   (0x1ff9, 0x1ff9, Mapped, Some [0x3cc]); (0x1ffa, 0x1ffa, Mapped, Some [0x1f7c]); (0x1ffb, 0x1ffb, Mapped, Some [0x3ce]);
   (0x1ffc, 0x1ffc, Mapped, Some [0x3c9; 0x3b9]); (0x1ffd, 0x1ffd, Std3_mapped, Some [0x20; 0x301]); (0x1ffe, 0x1ffe, Std3_mapped, Some [0x20; 0x314]);
   (0x1fff, 0x1fff, Disallowed, None); (0x2000, 0x200a, Std3_mapped, Some [0x20]); (0x200b, 0x200b, Ignored, None);
   (0x200c, 0x200d, Deviation, Some []); (0x200e, 0x200f, Disallowed, None); (0x2010, 0x2010, Valid, Some []);
   (0x2011, 0x2011, Mapped, Some [0x2010]); (0x2012, 0x2016, Valid, Some []); (0x2017, 0x2017, Std3_mapped, Some [0x20; 0x333]);
   (0x2018, 0x2023, Valid, Some []); (0x2024, 0x2026, Disallowed, None); (0x2027, 0x2027, Valid, Some []);
   (0x2028, 0x202e, Disallowed, None); (0x202f, 0x202f, Std3_mapped, Some [0x20]); (0x2030, 0x2032, Valid, Some []);
   (0x2033, 0x2033, Mapped, Some [0x2032; 0x2032]); (0x2034, 0x2034, Mapped, Some [0x2032; 0x2032; 0x2032]); (0x2035, 0x2035, Valid, Some []);
   (0x2036, 0x2036, Mapped, Some [0x2035; 0x2035]); (0x2037, 0x2037, Mapped, Some [0x2035; 0x2035; 0x2035]); (0x2038, 0x203b, Valid, Some []);
   (0x203c, 0x203c, Std3_mapped, Some [0x21; 0x21]); (0x203d, 0x203d, Valid, Some []); (0x203e, 0x203e, Std3_mapped, Some [0x20; 0x305]);
   (0x203f, 0x2046, Valid, Some []); (0x2047, 0x2047, Std3_mapped, Some [0x3f; 0x3f]); (0x2048, 0x2048, Std3_mapped, Some [0x3f; 0x21]);
   (0x2049, 0x2049, Std3_mapped, Some [0x21; 0x3f]); (0x204a, 0x204d, Valid, Some []); (0x204e, 0x2052, Valid, Some []);
   (0x2053, 0x2054, Valid, Some []); (0x2055, 0x2056, Valid, Some []); (0x2057, 0x2057, Mapped, Some [0x2032; 0x2032; 0x2032; 0x2032]);
   (0x2058, 0x205e, Valid, Some []); (0x205f, 0x205f, Std3_mapped, Some [0x20]); (0x2060, 0x2060, Ignored, None);
   (0x2061, 0x2063, Disallowed, None); (0x2064, 0x2064, Ignored, None); (0x2065, 0x2065, Disallowed, None);
   (0x2066, 0x2069, Disallowed, None); (0x206a, 0x206f, Disallowed, None); (0x2070, 0x2070, Mapped, Some [0x30]);
   (0x2071, 0x2071, Mapped, Some [0x69]); (0x2072, 0x2073, Disallowed, None); (0x2074, 0x2074, Mapped, Some [0x34]);
   (0x2075, 0x2075, Mapped, Some [0x35]); (0x2076, 0x2076, Mapped, Some [0x36]); (0x2077, 0x2077, Mapped, Some [0x37]);
   (0x2078, 0x2078, Mapped, Some [0x38]); (0x2079, 0x2079, Mapped, Some [0x39]); (0x207a, 0x207a, Std3_mapped, Some [0x2b]);
   (0x207b, 0x207b, Mapped, Some [0x2212]); (0x207c, 0x207c, Std3_mapped, Some [0x3d]); (0x207d, 0x207d, Std3_mapped, Some [0x28]);
   (0x207e, 0x207e, Std3_mapped, Some [0x29]); (0x207f, 0x207f, Mapped, Some [0x6e]); (0x2080, 0x2080, Mapped, Some [0x30]);
   (0x2081, 0x2081, Mapped, Some [0x31]); (0x2082, 0x2082, Mapped, Some [0x32]); (0x2083, 0x2083, Mapped, Some [0x33]);
   (0x2084, 0x2084, Mapped, Some [0x34]); (0x2085, 0x2085, Mapped, Some [0x35]); (0x2086, 0x2086, Mapped, Some [0x36]);
   (0x2087, 0x2087, Mapped, Some [0x37]); (0x2088, 0x2088, Mapped, Some [0x38]); (0x2089, 0x2089, Mapped, Some [0x39]);
   (0x208a, 0x208a, Std3_mapped, Some [0x2b]); (0x208b, 0x208b, Mapped, Some [0x2212]); (0x208c, 0x208c, Std3_mapped, Some [0x3d]);
   (0x208d, 0x208d, Std3_mapped, Some [0x28]); (0x208e, 0x208e, Std3_mapped, Some [0x29]); (0x208f, 0x208f, Disallowed, None);
   (0x2090, 0x2090, Mapped, Some [0x61]); (0x2091, 0x2091, Mapped, Some [0x65]); (0x2092, 0x2092, Mapped, Some [0x6f]);
   (0x2093, 0x2093, Mapped, Some [0x78]); (0x2094, 0x2094, Mapped, Some [0x259]); (0x2095, 0x2095, Mapped, Some [0x68]);
   (0x2096, 0x2096, Mapped, Some [0x6b]); (0x2097, 0x2097, Mapped, Some [0x6c]); (0x2098, 0x2098, Mapped, Some [0x6d]);
   (0x2099, 0x2099, Mapped, Some [0x6e]); (0x209a, 0x209a, Mapped, Some [0x70]); (0x209b, 0x209b, Mapped, Some [0x73]);
   (0x209c, 0x209c, Mapped, Some [0x74]); (0x209d, 0x209f, Disallowed, None); (0x20a0, 0x20a7, Valid, Some []);
   (0x20a8, 0x20a8, Mapped, Some [0x72; 0x73]); (0x20a9, 0x20aa, Valid, Some []); (0x20ab, 0x20ab, Valid, Some []);
   (0x20ac, 0x20ac, Valid, Some []); (0x20ad, 0x20af, Valid, Some []); (0x20b0, 0x20b1, Valid, Some []);
   (0x20b2, 0x20b5, Valid, Some []); (0x20b6, 0x20b8, Valid, Some []); (0x20b9, 0x20b9, Valid, Some []);
   (0x20ba, 0x20ba, Valid, Some []); (0x20bb, 0x20bd, Valid, Some []); (0x20be, 0x20be, Valid, Some []);
   (0x20bf, 0x20bf, Valid, Some []); (0x20c0, 0x20cf, Disallowed, None); (0x20d0, 0x20e1, Valid, Some []);
   (0x20e2, 0x20e3, Valid, Some []); (0x20e4, 0x20ea, Valid, Some []); (0x20eb, 0x20eb, Valid, Some []);
   (0x20ec, 0x20ef, Valid, Some []); (0x20f0, 0x20f0, Valid, Some []); (0x20f1, 0x20ff, Disallowed, None);
   (0x2100, 0x2100, Std3_mapped, Some [0x61; 0x2f; 0x63]); (0x2101, 0x2101, Std3_mapped, Some [0x61; 0x2f; 0x73]); (0x2102, 0x2102, Mapped, Some [0x63]);
   (0x2103, 0x2103, Mapped, Some [0xb0; 0x63]); (0x2104, 0x2104, Valid, Some []); (0x2105, 0x2105, Std3_mapped, Some [0x63; 0x2f; 0x6f]);
   (0x2106, 0x2106, Std3_mapped, Some [0x63; 0x2f; 0x75]); (0x2107, 0x2107, Mapped, Some [0x25b]); (0x2108, 0x2108, Valid, Some []);
   (0x2109, 0x2109, Mapped, Some [0xb0; 0x66]); (0x210a, 0x210a, Mapped, Some [0x67]); (0x210b, 0x210e, Mapped, Some [0x68]);
   (0x210f, 0x210f, Mapped, Some [0x127]); (0x2110, 0x2111, Mapped, Some [0x69]); (0x2112, 0x2113, Mapped, Some [0x6c]);
   (0x2114, 0x2114, Valid, Some []); (0x2115, 0x2115, Mapped, Some [0x6e]); (0x2116, 0x2116, Mapped, Some [0x6e; 0x6f]);
   (0x2117, 0x2118, Valid, Some []); (0x2119, 0x2119, Mapped, Some [0x70]); (0x211a, 0x211a, Mapped, Some [0x71]);
   (0x211b, 0x211d, Mapped, Some [0x72]); (0x211e, 0x211f, Valid, Some []); (0x2120, 0x2120, Mapped, Some [0x73; 0x6d]);
   (0x2121, 0x2121, Mapped, Some [0x74; 0x65; 0x6c]); (0x2122, 0x2122, Mapped, Some [0x74; 0x6d]); (0x2123, 0x2123, Valid, Some []);
   (0x2124, 0x2124, Mapped, Some [0x7a]); (0x2125, 0x2125, Valid, Some []); (0x2126, 0x2126, Mapped, Some [0x3c9]);
   (0x2127, 0x2127, Valid, Some []); (0x2128, 0x2128, Mapped, Some [0x7a]); (0x2129, 0x2129, Valid, Some []);
   (0x212a, 0x212a, Mapped, Some [0x6b]); (0x212b, 0x212b, Mapped, Some [0xe5]); (0x212c, 0x212c, Mapped, Some [0x62]);
   (0x212d, 0x212d, Mapped, Some [0x63]); (0x212e, 0x212e, Valid, Some []); (0x212f, 0x2130, Mapped, Some [0x65]);
   (0x2131, 0x2131, Mapped, Some [0x66]); (0x2132, 0x2132, Disallowed, None); (0x2133, 0x2133, Mapped, Some [0x6d]);
   (0x2134, 0x2134, Mapped, Some [0x6f]); (0x2135, 0x2135, Mapped, Some [0x5d0]); (0x2136, 0x2136, Mapped, Some [0x5d1]);
   (0x2137, 0x2137, Mapped, Some [0x5d2]); (0x2138, 0x2138, Mapped, Some [0x5d3]); (0x2139, 0x2139, Mapped, Some [0x69]);
   (0x213a, 0x213a, Valid, Some []); (0x213b, 0x213b, Mapped, Some [0x66; 0x61; 0x78]); (0x213c, 0x213c, Mapped, Some [0x3c0]);
   (0x213d, 0x213e, Mapped, Some [0x3b3]); (0x213f, 0x213f, Mapped, Some [0x3c0]); (0x2140, 0x2140, Mapped, Some [0x2211]);
   (0x2141, 0x2144, Valid, Some []); (0x2145, 0x2146, Mapped, Some [0x64]); (0x2147, 0x2147, Mapped, Some [0x65]);
   (0x2148, 0x2148, Mapped, Some [0x69]); (0x2149, 0x2149, Mapped, Some [0x6a]); (0x214a, 0x214b, Valid, Some []);
   (0x214c, 0x214c, Valid, Some []); (0x214d, 0x214d, Valid, Some []); (0x214e, 0x214e, Valid, None);
   (0x214f, 0x214f, Valid, Some []); (0x2150, 0x2150, Mapped, Some [0x31; 0x2044; 0x37]); (0x2151, 0x2151, Mapped, Some [0x31; 0x2044; 0x39]);
   (0x2152, 0x2152, Mapped, Some [0x31; 0x2044; 0x31; 0x30]); (0x2153, 0x2153, Mapped, Some [0x31; 0x2044; 0x33]); (0x2154, 0x2154, Mapped, Some [0x32; 0x2044; 0x33]);
   (0x2155, 0x2155, Mapped, Some [0x31; 0x2044; 0x35]); (0x2156, 0x2156, Mapped, Some [0x32; 0x2044; 0x35]); (0x2157, 0x2157, Mapped, Some [0x33; 0x2044; 0x35]);
   (0x2158, 0x2158, Mapped, Some [0x34; 0x2044; 0x35]); (0x2159, 0x2159, Mapped, Some [0x31; 0x2044; 0x36]); (0x215a, 0x215a, Mapped, Some [0x35; 0x2044; 0x36]);
   (0x215b, 0x215b, Mapped, Some [0x31; 0x2044; 0x38]); (0x215c, 0x215c, Mapped, Some [0x33; 0x2044; 0x38]); (0x215d, 0x215d, Mapped, Some [0x35; 0x2044; 0x38]);
   (0x215e, 0x215e, Mapped, Some [0x37; 0x2044; 0x38]); (0x215f, 0x215f, Mapped, Some [0x31; 0x2044]); (0x2160, 0x2160, Mapped, Some [0x69]);
   (0x2161, 0x2161, Mapped, Some [0x69; 0x69]); (0x2162, 0x2162, Mapped, Some [0x69; 0x69; 0x69]); (0x2163, 0x2163, Mapped, Some [0x69; 0x76]);
   (0x2164, 0x2164, Mapped, Some [0x76]); (0x2165, 0x2165, Mapped, Some [0x76; 0x69]); (0x2166, 0x2166, Mapped, Some [0x76; 0x69; 0x69]);
   (0x2167, 0x2167, Mapped, Some [0x76; 0x69; 0x69; 0x69]); (0x2168, 0x2168, Mapped, Some [0x69; 0x78]); (0x2169, 0x2169, Mapped, Some [0x78]);
   (0x216a, 0x216a, Mapped, Some [0x78; 0x69]); (0x216b, 0x216b, Mapped, Some [0x78; 0x69; 0x69]); (0x216c, 0x216c, Mapped, Some [0x6c]);
   (0x216d, 0x216d, Mapped, Some [0x63]); (0x216e, 0x216e, Mapped, Some [0x64]); (0x216f, 0x216f, Mapped, Some [0x6d]);
   (0x2170, 0x2170, Mapped, Some [0x69]); (0x2171, 0x2171, Mapped, Some [0x69; 0x69]); (0x2172, 0x2172, Mapped, Some [0x69; 0x69; 0x69]);
   (0x2173, 0x2173, Mapped, Some [0x69; 0x76]); (0x2174, 0x2174, Mapped, Some [0x76]); (0x2175, 0x2175, Mapped, Some [0x76; 0x69]);
   (0x2176, 0x2176, Mapped, Some [0x76; 0x69; 0x69]); (0x2177, 0x2177, Mapped, Some [0x76; 0x69; 0x69; 0x69]); (0x2178, 0x2178, Mapped, Some [0x69; 0x78]);
   (0x2179, 0x2179, Mapped, Some [0x78]); (0x217a, 0x217a, Mapped, Some [0x78; 0x69]); (0x217b, 0x217b, Mapped, Some [0x78; 0x69; 0x69]);
   (0x217c, 0x217c, Mapped, Some [0x6c]); (0x217d, 0x217d, Mapped, Some [0x63]); (0x217e, 0x217e, Mapped, Some [0x64]);
   (0x217f, 0x217f, Mapped, Some [0x6d]); (0x2180, 0x2182, Valid, Some []); (0x2183, 0x2183, Disallowed, None);
   (0x2184, 0x2184, Valid, None); (0x2185, 0x2188, Valid, Some []); (0x2189, 0x2189, Mapped, Some [0x30; 0x2044; 0x33]);
   (0x218a, 0x218b, Valid, Some []); (0x218c, 0x218f, Disallowed, None); (0x2190, 0x21ea, Valid, Some []);
   (0x21eb, 0x21f3, Valid, Some []); (0x21f4, 0x21ff, Valid, Some []); (0x2200, 0x222b, Valid, Some []);
   (0x222c, 0x222c, Mapped, Some [0x222b; 0x222b]); (0x222d, 0x222d, Mapped, Some [0x222b; 0x222b; 0x222b]); (0x222e, 0x222e, Valid, Some []);
   (0x222f, 0x222f, Mapped, Some [0x222e; 0x222e]); (0x2230, 0x2230, Mapped, Some [0x222e; 0x222e; 0x222e]); (0x2231, 0x225f, Valid, Some []);
   (0x2260, 0x2260, Std3_valid, None); (0x2261, 0x226d, Valid, Some []); (0x226e, 0x226f, Std3_valid, None);
   (0x2270, 0x22f1, Valid, Some []); (0x22f2, 0x22ff, Valid, Some []); (0x2300, 0x2300, Valid, Some []);
   (0x2301, 0x2301, Valid, Some []); (0x2302, 0x2328, Valid, Some []); (0x2329, 0x2329, Mapped, Some [0x3008]);
   (0x232a, 0x232a, Mapped, Some [0x3009]); (0x232b, 0x237a, Valid, Some []); (0x237b, 0x237b, Valid, Some []);
   (0x237c, 0x237c, Valid, Some []); (0x237d, 0x239a, Valid, Some []); (0x239b, 0x23ce, Valid, Some []);
   (0x23cf, 0x23d0, Valid, Some []); (0x23d1, 0x23db, Valid, Some []); (0x23dc, 0x23e7, Valid, Some []);
   (0x23e8, 0x23e8, Valid, Some []); (0x23e9, 0x23f3, Valid, Some []); (0x23f4, 0x23fa, Valid, Some []);
   (0x23fb, 0x23fe, Valid, Some []); (0x23ff, 0x23ff, Valid, Some []); (0x2400, 0x2424, Valid, Some []);
   (0x2425, 0x2426, Valid, Some []); (0x2427, 0x243f, Disallowed, None); (0x2440, 0x244a, Valid, Some []);
   (0x244b, 0x245f, Disallowed, None); (0x2460, 0x2460, Mapped, Some [0x31]); (0x2461, 0x2461, Mapped, Some [0x32]);
   (0x2462, 0x2462, Mapped, Some [0x33]); (0x2463, 0x2463, Mapped, Some [0x34]); (0x2464, 0x2464, Mapped, Some [0x35]);
   (0x2465, 0x2465, Mapped, Some [0x36]); (0x2466, 0x2466, Mapped, Some [0x37]); (0x2467, 0x2467, Mapped, Some [0x38]);
   (0x2468, 0x2468, Mapped, Some [0x39]); (0x2469, 0x2469, Mapped, Some [0x31; 0x30]); (0x246a, 0x246a, Mapped, Some [0x31; 0x31]);
   (0x246b, 0x246b, Mapped, Some [0x31; 0x32]); (0x246c, 0x246c, Mapped, Some [0x31; 0x33]); (0x246d, 0x246d, Mapped, Some [0x31; 0x34]);
   (0x246e, 0x246e, Mapped, Some [0x31; 0x35]); (0x246f, 0x246f, Mapped, Some [0x31; 0x36]); (0x2470, 0x2470, Mapped, Some [0x31; 0x37]);
   (0x2471, 0x2471, Mapped, Some [0x31; 0x38]); (0x2472, 0x2472, Mapped, Some [0x31; 0x39]); (0x2473, 0x2473, Mapped, Some [0x32; 0x30]);
   (0x2474, 0x2474, Std3_mapped, Some [0x28; 0x31; 0x29]); (0x2475, 0x2475, Std3_mapped, Some [0x28; 0x32; 0x29]); (0x2476, 0x2476, Std3_mapped, Some [0x28; 0x33; 0x29]);
   (0x2477, 0x2477, Std3_mapped, Some [0x28; 0x34; 0x29]); (0x2478, 0x2478, Std3_mapped, Some [0x28; 0x35; 0x29]); (0x2479, 0x2479, Std3_mapped, Some [0x28; 0x36; 0x29]);
   (0x247a, 0x247a, Std3_mapped, Some [0x28; 0x37; 0x29]); (0x247b, 0x247b, Std3_mapped, Some [0x28; 0x38; 0x29]); (0x247c, 0x247c, Std3_mapped, Some [0x28; 0x39; 0x29]);
   (0x247d, 0x247d, Std3_mapped, Some [0x28; 0x31; 0x30; 0x29]); (0x247e, 0x247e, Std3_mapped, Some [0x28; 0x31; 0x31; 0x29]); (0x247f, 0x247f, Std3_mapped, Some [0x28; 0x31; 0x32; 0x29]);
   (0x2480, 0x2480, Std3_mapped, Some [0x28; 0x31; 0x33; 0x29]); (0x2481, 0x2481, Std3_mapped, Some [0x28; 0x31; 0x34; 0x29]); (0x2482, 0x2482, Std3_mapped, Some [0x28; 0x31; 0x35; 0x29]);
   (0x2483, 0x2483, Std3_mapped, Some [0x28; 0x31; 0x36; 0x29]); (0x2484, 0x2484, Std3_mapped, Some [0x28; 0x31; 0x37; 0x29]); (0x2485, 0x2485, Std3_mapped, Some [0x28; 0x31; 0x38; 0x29]);
   (0x2486, 0x2486, Std3_mapped, Some [0x28; 0x31; 0x39; 0x29]); (0x2487, 0x2487, Std3_mapped, Some [0x28; 0x32; 0x30; 0x29]); (0x2488, 0x249b, Disallowed, None);
   (0x249c, 0x249c, Std3_mapped, Some [0x28; 0x61; 0x29]); (0x249d, 0x249d, Std3_mapped, Some [0x28; 0x62; 0x29]); (0x249e, 0x249e, Std3_mapped, Some [0x28; 0x63; 0x29]);
   (0x249f, 0x249f, Std3_mapped, Some [0x28; 0x64; 0x29]); (0x24a0, 0x24a0, Std3_mapped, Some [0x28; 0x65; 0x29]); (0x24a1, 0x24a1, Std3_mapped, Some [0x28; 0x66; 0x29]);
   (0x24a2, 0x24a2, Std3_mapped, Some [0x28; 0x67; 0x29]); (0x24a3, 0x24a3, Std3_mapped, Some [0x28; 0x68; 0x29]); (0x24a4, 0x24a4, Std3_mapped, Some [0x28; 0x69; 0x29]);
   (0x24a5, 0x24a5, Std3_mapped, Some [0x28; 0x6a; 0x29]); (0x24a6, 0x24a6, Std3_mapped, Some [0x28; 0x6b; 0x29]); (0x24a7, 0x24a7, Std3_mapped, Some [0x28; 0x6c; 0x29]);
   (0x24a8, 0x24a8, Std3_mapped, Some [0x28; 0x6d; 0x29]); (0x24a9, 0x24a9, Std3_mapped, Some [0x28; 0x6e; 0x29]); (0x24aa, 0x24aa, Std3_mapped, Some [0x28; 0x6f; 0x29]);
   (0x24ab, 0x24ab, Std3_mapped, Some [0x28; 0x70; 0x29]); (0x24ac, 0x24ac, Std3_mapped, Some [0x28; 0x71; 0x29]); (0x24ad, 0x24ad, Std3_mapped, Some [0x28; 0x72; 0x29]);
   (0x24ae, 0x24ae, Std3_mapped, Some [0x28; 0x73; 0x29]); (0x24af, 0x24af, Std3_mapped, Some [0x28; 0x74; 0x29]); (0x24b0, 0x24b0, Std3_mapped, Some [0x28; 0x75; 0x29]);
   (0x24b1, 0x24b1, Std3_mapped, Some [0x28; 0x76; 0x29]); (0x24b2, 0x24b2, Std3_mapped, Some [0x28; 0x77; 0x29]); (0x24b3, 0x24b3, Std3_mapped, Some [0x28; 0x78; 0x29]);
   (0x24b4, 0x24b4, Std3_mapped, Some [0x28; 0x79; 0x29]); (0x24b5, 0x24b5, Std3_mapped, Some [0x28; 0x7a; 0x29]); (0x24b6, 0x24b6, Mapped, Some [0x61]);
   (0x24b7, 0x24b7, Mapped, Some [0x62]); (0x24b8, 0x24b8, Mapped, Some [0x63]); (0x24b9, 0x24b9, Mapped, Some [0x64]);
   (0x24ba, 0x24ba, Mapped, Some [0x65]); (0x24bb, 0x24bb, Mapped, Some [0x66]); (0x24bc, 0x24bc, Mapped, Some [0x67]);
   (0x24bd, 0x24bd, Mapped, Some [0x68]); (0x24be, 0x24be, Mapped, Some [0x69]); (0x24bf, 0x24bf, Mapped, Some [0x6a]);
   (0x24c0, 0x24c0, Mapped, Some [0x6b]); (0x24c1, 0x24c1, Mapped, Some [0x6c]); (0x24c2, 0x24c2, Mapped, Some [0x6d]);
   (0x24c3, 0x24c3, Mapped, Some [0x6e]); (0x24c4, 0x24c4, Mapped, Some [0x6f]); (0x24c5, 0x24c5, Mapped, Some [0x70]);
   (0x24c6, 0x24c6, Mapped, Some [0x71]); (0x24c7, 0x24c7, Mapped, Some [0x72]); (0x24c8, 0x24c8, Mapped, Some [0x73]);
   (0x24c9, 0x24c9, Mapped, Some [0x74]); (0x24ca, 0x24ca, Mapped, Some [0x75]); (0x24cb, 0x24cb, Mapped, Some [0x76]);
   (0x24cc, 0x24cc, Mapped, Some [0x77]); (0x24cd, 0x24cd, Mapped, Some [0x78]); (0x24ce, 0x24ce, Mapped, Some [0x79]);
   (0x24cf, 0x24cf, Mapped, Some [0x7a]); (0x24d0, 0x24d0, Mapped, Some [0x61]); (0x24d1, 0x24d1, Mapped, Some [0x62]);
   (0x24d2, 0x24d2, Mapped, Some [0x63]); (0x24d3, 0x24d3, Mapped, Some [0x64]); (0x24d4, 0x24d4, Mapped, Some [0x65]);
   (0x24d5, 0x24d5, Mapped, Some [0x66]); (0x24d6, 0x24d6, Mapped, Some [0x67]); (0x24d7, 0x24d7, Mapped, Some [0x68]);
   (0x24d8, 0x24d8, Mapped, Some [0x69]); (0x24d9, 0x24d9, Mapped, Some [0x6a]); (0x24da, 0x24da, Mapped, Some [0x6b]);
   (0x24db, 0x24db, Mapped, Some [0x6c]); (0x24dc, 0x24dc, Mapped, Some [0x6d]); (0x24dd, 0x24dd, Mapped, Some [0x6e]);
   (0x24de, 0x24de, Mapped, Some [0x6f]); (0x24df, 0x24df, Mapped, Some [0x70]); (0x24e0, 0x24e0, Mapped, Some [0x71]);
   (0x24e1, 0x24e1, Mapped, Some [0x72]); (0x24e2, 0x24e2, Mapped, Some [0x73]); (0x24e3, 0x24e3, Mapped, Some [0x74]);
   (0x24e4, 0x24e4, Mapped, Some [0x75]); (0x24e5, 0x24e5, Mapped, Some [0x76]); (0x24e6, 0x24e6, Mapped, Some [0x77]);
   (0x24e7, 0x24e7, Mapped, Some [0x78]); (0x24e8, 0x24e8, Mapped, Some [0x79]); (0x24e9, 0x24e9, Mapped, Some [0x7a]);
   (0x24ea, 0x24ea, Mapped, Some [0x30]); (0x24eb, 0x24fe, Valid, Some []); (0x24ff, 0x24ff, Valid, Some []);
   (0x2500, 0x2595, Valid, Some []); (0x2596, 0x259f, Valid, Some []); (0x25a0, 0x25ef, Valid, Some []);
   (0x25f0, 0x25f7, Valid, Some []); (0x25f8, 0x25ff, Valid, Some []); (0x2600, 0x2613, Valid, Some []);
   (0x2614, 0x2615, Valid, Some []); (0x2616, 0x2617, Valid, Some []); (0x2618, 0x2618, Valid, Some []);
   (0x2619, 0x2619, Valid, Some []); (0x261a, 0x266f, Valid, Some []); (0x2670, 0x2671, Valid, Some []);
   (0x2672, 0x267d, Valid, Some []); (0x267e, 0x267f, Valid, Some []); (0x2680, 0x2689, Valid, Some []);
   (0x268a, 0x2691, Valid, Some []); (0x2692, 0x269c, Valid, Some []); (0x269d, 0x269d, Valid, Some []);
   (0x269e, 0x269f, Valid, Some []); (0x26a0, 0x26a1, Valid, Some []); (0x26a2, 0x26b1, Valid, Some []);
   (0x26b2, 0x26b2, Valid, Some []); (0x26b3, 0x26bc, Valid, Some []); (0x26bd, 0x26bf, Valid, Some []);
   (0x26c0, 0x26c3, Valid, Some []); (0x26c4, 0x26cd, Valid, Some []); (0x26ce, 0x26ce, Valid, Some []);
   (0x26cf, 0x26e1, Valid, Some []); (0x26e2, 0x26e2, Valid, Some []); (0x26e3, 0x26e3, Valid, Some []);
   (0x26e4, 0x26e7, Valid, Some []); (0x26e8, 0x26ff, Valid, Some []); (0x2700, 0x2700, Valid, Some []);
   (0x2701, 0x2704, Valid, Some []); (0x2705, 0x2705, Valid, Some []); (0x2706, 0x2709, Valid, Some []);
   (0x270a, 0x270b, Valid, Some []); (0x270c, 0x2727, Valid, Some []); (0x2728, 0x2728, Valid, Some []);
   (0x2729, 0x274b, Valid, Some []); (0x274c, 0x274c, Valid, Some []); (0x274d, 0x274d, Valid, Some []);
   (0x274e, 0x274e, Valid, Some []); (0x274f, 0x2752, Valid, Some []); (0x2753, 0x2755, Valid, Some []);
   (0x2756, 0x2756, Valid, Some []); (0x2757, 0x2757, Valid, Some []); (0x2758, 0x275e, Valid, Some []);
   (0x275f, 0x2760, Valid, Some []); (0x2761, 0x2767, Valid, Some []); (0x2768, 0x2775, Valid, Some []);
   (0x2776, 0x2794, Valid, Some []); (0x2795, 0x2797, Valid, Some []); (0x2798, 0x27af, Valid, Some []);
   (0x27b0, 0x27b0, Valid, Some []); (0x27b1, 0x27be, Valid, Some []); (0x27bf, 0x27bf, Valid, Some []);
   (0x27c0, 0x27c6, Valid, Some []); (0x27c7, 0x27ca, Valid, Some []); (0x27cb, 0x27cb, Valid, Some []);
   (0x27cc, 0x27cc, Valid, Some []); (0x27cd, 0x27cd, Valid, Some []); (0x27ce, 0x27cf, Valid, Some []);
   (0x27d0, 0x27eb, Valid, Some []); (0x27ec, 0x27ef, Valid, Some []); (0x27f0, 0x27ff, Valid, Some []);
   (0x2800, 0x28ff, Valid, Some []); (0x2900, 0x2a0b, Valid, Some []); (0x2a0c, 0x2a0c, Mapped, Some [0x222b; 0x222b; 0x222b; 0x222b]);
   (0x2a0d, 0x2a73, Valid, Some []); (0x2a74, 0x2a74, Std3_mapped, Some [0x3a; 0x3a; 0x3d]); (0x2a75, 0x2a75, Std3_mapped, Some [0x3d; 0x3d]);
   (0x2a76, 0x2a76, Std3_mapped, Some [0x3d; 0x3d; 0x3d]); (0x2a77, 0x2adb, Valid, Some []); (0x2adc, 0x2adc, Mapped, Some [0x2add; 0x338]);
   (0x2add, 0x2aff, Valid, Some []); (0x2b00, 0x2b0d, Valid, Some []); (0x2b0e, 0x2b13, Valid, Some []);
   (0x2b14, 0x2b1a, Valid, Some []); (0x2b1b, 0x2b1f, Valid, Some []); (0x2b20, 0x2b23, Valid, Some []);
   (0x2b24, 0x2b4c, Valid, Some []); (0x2b4d, 0x2b4f, Valid, Some []); (0x2b50, 0x2b54, Valid, Some []);
   (0x2b55, 0x2b59, Valid, Some []); (0x2b5a, 0x2b73, Valid, Some []); (0x2b74, 0x2b75, Disallowed, None);
   (0x2b76, 0x2b95, Valid, Some []); (0x2b96, 0x2b96, Disallowed, None); (0x2b97, 0x2b97, Valid, Some []);
   (0x2b98, 0x2bb9, Valid, Some []); (0x2bba, 0x2bbc, Valid, Some []); (0x2bbd, 0x2bc8, Valid, Some []);
   (0x2bc9, 0x2bc9, Valid, Some []); (0x2bca, 0x2bd1, Valid, Some []); (0x2bd2, 0x2bd2, Valid, Some []);
   (0x2bd3, 0x2beb, Valid, Some []); (0x2bec, 0x2bef, Valid, Some []); (0x2bf0, 0x2bfe, Valid, Some []);
   (0x2bff, 0x2bff, Valid, Some []); (0x2c00, 0x2c00, Mapped, Some [0x2c30]); (0x2c01, 0x2c01, Mapped, Some [0x2c31]);
   (0x2c02, 0x2c02, Mapped, Some [0x2c32]); (0x2c03, 0x2c03, Mapped, Some [0x2c33]); (0x2c04, 0x2c04, Mapped, Some [0x2c34]);
   (0x2c05, 0x2c05, Mapped, Some [0x2c35]); (0x2c06, 0x2c06, Mapped, Some [0x2c36]); (0x2c07, 0x2c07, Mapped, Some [0x2c37]);
   (0x2c08, 0x2c08, Mapped, Some [0x2c38]); (0x2c09, 0x2c09, Mapped, Some [0x2c39]); (0x2c0a, 0x2c0a, Mapped, Some [0x2c3a]);
   (0x2c0b, 0x2c0b, Mapped, Some [0x2c3b]); (0x2c0c, 0x2c0c, Mapped, Some [0x2c3c]); (0x2c0d, 0x2c0d, Mapped, Some [0x2c3d]);
   (0x2c0e, 0x2c0e, Mapped, Some [0x2c3e]); (0x2c0f, 0x2c0f, Mapped, Some [0x2c3f]); (0x2c10, 0x2c10, Mapped, Some [0x2c40]);
   (0x2c11, 0x2c11, Mapped, Some [0x2c41]); (0x2c12, 0x2c12, Mapped, Some [0x2c42]); (0x2c13, 0x2c13, Mapped, Some [0x2c43]);
   (0x2c14, 0x2c14, Mapped, Some [0x2c44]); (0x2c15, 0x2c15, Mapped, Some [0x2c45]); (0x2c16, 0x2c16, Mapped, Some [0x2c46]);
   (0x2c17, 0x2c17, Mapped, Some [0x2c47]); (0x2c18, 0x2c18, Mapped, Some [0x2c48]); (0x2c19, 0x2c19, Mapped, Some [0x2c49]);
   (0x2c1a, 0x2c1a, Mapped, Some [0x2c4a]); (0x2c1b, 0x2c1b, Mapped, Some [0x2c4b]); (0x2c1c, 0x2c1c, Mapped, Some [0x2c4c]);
   (0x2c1d, 0x2c1d, Mapped, Some [0x2c4d]); (0x2c1e, 0x2c1e, Mapped, Some [0x2c4e]); (0x2c1f, 0x2c1f, Mapped, Some [0x2c4f]);
   (0x2c20, 0x2c20, Mapped, Some [0x2c50]); (0x2c21, 0x2c21, Mapped, Some [0x2c51]); (0x2c22, 0x2c22, Mapped, Some [0x2c52]);
   (0x2c23, 0x2c23, Mapped, Some [0x2c53]); (0x2c24, 0x2c24, Mapped, Some [0x2c54]); (0x2c25, 0x2c25, Mapped, Some [0x2c55]);
   (0x2c26, 0x2c26, Mapped, Some [0x2c56]); (0x2c27, 0x2c27, Mapped, Some [0x2c57]); (0x2c28, 0x2c28, Mapped, Some [0x2c58]);
   (0x2c29, 0x2c29, Mapped, Some [0x2c59]); (0x2c2a, 0x2c2a, Mapped, Some [0x2c5a]); (0x2c2b, 0x2c2b, Mapped, Some [0x2c5b]);
   (0x2c2c, 0x2c2c, Mapped, Some [0x2c5c]); (0x2c2d, 0x2c2d, Mapped, Some [0x2c5d]); (0x2c2e, 0x2c2e, Mapped, Some [0x2c5e]);
   (0x2c2f, 0x2c2f, Disallowed, None); (0x2c30, 0x2c5e, Valid, None); (0x2c5f, 0x2c5f, Disallowed, None);
   (0x2c60, 0x2c60, Mapped, Some [0x2c61]); (0x2c61, 0x2c61, Valid, None); (0x2c62, 0x2c62, Mapped, Some [0x26b]);
   (0x2c63, 0x2c63, Mapped, Some [0x1d7d]); (0x2c64, 0x2c64, Mapped, Some [0x27d]); (0x2c65, 0x2c66, Valid, None);
   (0x2c67, 0x2c67, Mapped, Some [0x2c68]); (0x2c68, 0x2c68, Valid, None); (0x2c69, 0x2c69, Mapped, Some [0x2c6a]);
   (0x2c6a, 0x2c6a, Valid, None); (0x2c6b, 0x2c6b, Mapped, Some [0x2c6c]); (0x2c6c, 0x2c6c, Valid, None);
   (0x2c6d, 0x2c6d, Mapped, Some [0x251]); (0x2c6e, 0x2c6e, Mapped, Some [0x271]); (0x2c6f, 0x2c6f, Mapped, Some [0x250]);
   (0x2c70, 0x2c70, Mapped, Some [0x252]); (0x2c71, 0x2c71, Valid, None); (0x2c72, 0x2c72, Mapped, Some [0x2c73]);
   (0x2c73, 0x2c73, Valid, None); (0x2c74, 0x2c74, Valid, None); (0x2c75, 0x2c75, Mapped, Some [0x2c76]);
   (0x2c76, 0x2c77, Valid, None); (0x2c78, 0x2c7b, Valid, None); (0x2c7c, 0x2c7c, Mapped, Some [0x6a]);
   (0x2c7d, 0x2c7d, Mapped, Some [0x76]); (0x2c7e, 0x2c7e, Mapped, Some [0x23f]); (0x2c7f, 0x2c7f, Mapped, Some [0x240]);
   (0x2c80, 0x2c80, Mapped, Some [0x2c81]); (0x2c81, 0x2c81, Valid, None); (0x2c82, 0x2c82, Mapped, Some [0x2c83]);
   (0x2c83, 0x2c83, Valid, None); (0x2c84, 0x2c84, Mapped, Some [0x2c85]); (0x2c85, 0x2c85, Valid, None);
   (0x2c86, 0x2c86, Mapped, Some [0x2c87]); (0x2c87, 0x2c87, Valid, None); (0x2c88, 0x2c88, Mapped, Some [0x2c89]);
   (0x2c89, 0x2c89, Valid, None); (0x2c8a, 0x2c8a, Mapped, Some [0x2c8b]); (0x2c8b, 0x2c8b, Valid, None);
   (0x2c8c, 0x2c8c, Mapped, Some [0x2c8d]); (0x2c8d, 0x2c8d, Valid, None); (0x2c8e, 0x2c8e, Mapped, Some [0x2c8f]);
   (0x2c8f, 0x2c8f, Valid, None); (0x2c90, 0x2c90, Mapped, Some [0x2c91]); (0x2c91, 0x2c91, Valid, None);
   (0x2c92, 0x2c92, Mapped, Some [0x2c93]); (0x2c93, 0x2c93, Valid, None); (0x2c94, 0x2c94, Mapped, Some [0x2c95]);
   (0x2c95, 0x2c95, Valid, None); (0x2c96, 0x2c96, Mapped, Some [0x2c97]); (0x2c97, 0x2c97, Valid, None);
   (0x2c98, 0x2c98, Mapped, Some [0x2c99]); (0x2c99, 0x2c99, Valid, None); (0x2c9a, 0x2c9a, Mapped, Some [0x2c9b]);
   (0x2c9b, 0x2c9b, Valid, None); (0x2c9c, 0x2c9c, Mapped, Some [0x2c9d]); (0x2c9d, 0x2c9d, Valid, None);
   (0x2c9e, 0x2c9e, Mapped, Some [0x2c9f]); (0x2c9f, 0x2c9f, Valid, None); (0x2ca0, 0x2ca0, Mapped, Some [0x2ca1]);
   (0x2ca1, 0x2ca1, Valid, None); (0x2ca2, 0x2ca2, Mapped, Some [0x2ca3]); (0x2ca3, 0x2ca3, Valid, None);
   (0x2ca4, 0x2ca4, Mapped, Some [0x2ca5]); (0x2ca5, 0x2ca5, Valid, None); (0x2ca6, 0x2ca6, Mapped, Some [0x2ca7]);
   (0x2ca7, 0x2ca7, Valid, None); (0x2ca8, 0x2ca8, Mapped, Some [0x2ca9]); (0x2ca9, 0x2ca9, Valid, None);
   (0x2caa, 0x2caa, Mapped, Some [0x2cab]); (0x2cab, 0x2cab, Valid, None); (0x2cac, 0x2cac, Mapped, Some [0x2cad]);
   (0x2cad, 0x2cad, Valid, None); (0x2cae, 0x2cae, Mapped, Some [0x2caf]); (0x2caf, 0x2caf, Valid, None);
   (0x2cb0, 0x2cb0, Mapped, Some [0x2cb1]); (0x2cb1, 0x2cb1, Valid, None); (0x2cb2, 0x2cb2, Mapped, Some [0x2cb3]);
   (0x2cb3, 0x2cb3, Valid, None); (0x2cb4, 0x2cb4, Mapped, Some [0x2cb5]); (0x2cb5, 0x2cb5, Valid, None);
   (0x2cb6, 0x2cb6, Mapped, Some [0x2cb7]); (0x2cb7, 0x2cb7, Valid, None); (0x2cb8, 0x2cb8, Mapped, Some [0x2cb9]);
   (0x2cb9, 0x2cb9, Valid, None); (0x2cba, 0x2cba, Mapped, Some [0x2cbb]); (0x2cbb, 0x2cbb, Valid, None);
   (0x2cbc, 0x2cbc, Mapped, Some [0x2cbd]); (0x2cbd, 0x2cbd, Valid, None); (0x2cbe, 0x2cbe, Mapped, Some [0x2cbf]);
   (0x2cbf, 0x2cbf, Valid, None); (0x2cc0, 0x2cc0, Mapped, Some [0x2cc1]); (0x2cc1, 0x2cc1, Valid, None);
   (0x2cc2, 0x2cc2, Mapped, Some [0x2cc3]); (0x2cc3, 0x2cc3, Valid, None); (0x2cc4, 0x2cc4, Mapped, Some [0x2cc5]);
   (0x2cc5, 0x2cc5, Valid, None); (0x2cc6, 0x2cc6, Mapped, Some [0x2cc7]); (0x2cc7, 0x2cc7, Valid, None);
   (0x2cc8, 0x2cc8, Mapped, Some [0x2cc9]); (0x2cc9, 0x2cc9, Valid, None); (0x2cca, 0x2cca, Mapped, Some [0x2ccb]);
   (0x2ccb, 0x2ccb, Valid, None); (0x2ccc, 0x2ccc, Mapped, Some [0x2ccd]); (0x2ccd, 0x2ccd, Valid, None);
   (0x2cce, 0x2cce, Mapped, Some [0x2ccf]); (0x2ccf, 0x2ccf, Valid, None); (0x2cd0, 0x2cd0, Mapped, Some [0x2cd1]);
   (0x2cd1, 0x2cd1, Valid, None); (0x2cd2, 0x2cd2, Mapped, Some [0x2cd3]); (0x2cd3, 0x2cd3, Valid, None);
   (0x2cd4, 0x2cd4, Mapped, Some [0x2cd5]); (0x2cd5, 0x2cd5, Valid, None); (0x2cd6, 0x2cd6, Mapped, Some [0x2cd7]);
   (0x2cd7, 0x2cd7, Valid, None); (0x2cd8, 0x2cd8, Mapped, Some [0x2cd9]); (0x2cd9, 0x2cd9, Valid, None);
   (0x2cda, 0x2cda, Mapped, Some [0x2cdb]); (0x2cdb, 0x2cdb, Valid, None); (0x2cdc, 0x2cdc, Mapped, Some [0x2cdd]);
   (0x2cdd, 0x2cdd, Valid, None); (0x2cde, 0x2cde, Mapped, Some [0x2cdf]); (0x2cdf, 0x2cdf, Valid, None);
   (0x2ce0, 0x2ce0, Mapped, Some [0x2ce1]); (0x2ce1, 0x2ce1, Valid, None); (0x2ce2, 0x2ce2, Mapped, Some [0x2ce3]);
   (0x2ce3, 0x2ce4, Valid, None); (0x2ce5, 0x2cea, Valid, Some []); (0x2ceb, 0x2ceb, Mapped, Some [0x2cec]);
   (0x2cec, 0x2cec, Valid, None); (0x2ced, 0x2ced, Mapped, Some [0x2cee]); (0x2cee, 0x2cf1, Valid, None);
   (0x2cf2, 0x2cf2, Mapped, Some [0x2cf3]); (0x2cf3, 0x2cf3, Valid, None); (0x2cf4, 0x2cf8, Disallowed, None);
   (0x2cf9, 0x2cff, Valid, Some []); (0x2d00, 0x2d25, Valid, None); (0x2d26, 0x2d26, Disallowed, None);
   (0x2d27, 0x2d27, Valid, None); (0x2d28, 0x2d2c, Disallowed, None); (0x2d2d, 0x2d2d, Valid, None);
   (0x2d2e, 0x2d2f, Disallowed, None); (0x2d30, 0x2d65, Valid, None); (0x2d66, 0x2d67, Valid, None);
   (0x2d68, 0x2d6e, Disallowed, None); (0x2d6f, 0x2d6f, Mapped, Some [0x2d61]); (0x2d70, 0x2d70, Valid, Some []);
   (0x2d71, 0x2d7e, Disallowed, None); (0x2d7f, 0x2d7f, Valid, None); (0x2d80, 0x2d96, Valid, None);
   (0x2d97, 0x2d9f, Disallowed, None); (0x2da0, 0x2da6, Valid, None); (0x2da7, 0x2da7, Disallowed, None);
   (0x2da8, 0x2dae, Valid, None); (0x2daf, 0x2daf, Disallowed, None); (0x2db0, 0x2db6, Valid, None);
   (0x2db7, 0x2db7, Disallowed, None); (0x2db8, 0x2dbe, Valid, None); (0x2dbf, 0x2dbf, Disallowed, None);
   (0x2dc0, 0x2dc6, Valid, None); (0x2dc7, 0x2dc7, Disallowed, None); (0x2dc8, 0x2dce, Valid, None);
   (0x2dcf, 0x2dcf, Disallowed, None); (0x2dd0, 0x2dd6, Valid, None); (0x2dd7, 0x2dd7, Disallowed, None);
   (0x2dd8, 0x2dde, Valid, None); (0x2ddf, 0x2ddf, Disallowed, None); (0x2de0, 0x2dff, Valid, None);
   (0x2e00, 0x2e17, Valid, Some []); (0x2e18, 0x2e1b, Valid, Some []); (0x2e1c, 0x2e1d, Valid, Some []);
   (0x2e1e, 0x2e2e, Valid, Some []); (0x2e2f, 0x2e2f, Valid, None); (0x2e30, 0x2e30, Valid, Some []);
   (0x2e31, 0x2e31, Valid, Some []); (0x2e32, 0x2e3b, Valid, Some []); (0x2e3c, 0x2e42, Valid, Some []);
   (0x2e43, 0x2e44, Valid, Some []); (0x2e45, 0x2e49, Valid, Some []); (0x2e4a, 0x2e4e, Valid, Some []);
   (0x2e4f, 0x2e4f, Valid, Some []); (0x2e50, 0x2e52, Valid, Some []); (0x2e53, 0x2e7f, Disallowed, None);
   (0x2e80, 0x2e99, Valid, Some []); (0x2e9a, 0x2e9a, Disallowed, None); (0x2e9b, 0x2e9e, Valid, Some []);
   (0x2e9f, 0x2e9f, Mapped, Some [0x6bcd]); (0x2ea0, 0x2ef2, Valid, Some []); (0x2ef3, 0x2ef3, Mapped, Some [0x9f9f]);
   (0x2ef4, 0x2eff, Disallowed, None); (0x2f00, 0x2f00, Mapped, Some [0x4e00]); (0x2f01, 0x2f01, Mapped, Some [0x4e28]);
   (0x2f02, 0x2f02, Mapped, Some [0x4e36]); (0x2f03, 0x2f03, Mapped, Some [0x4e3f]); (0x2f04, 0x2f04, Mapped, Some [0x4e59]);
   (0x2f05, 0x2f05, Mapped, Some [0x4e85]); (0x2f06, 0x2f06, Mapped, Some [0x4e8c]); (0x2f07, 0x2f07, Mapped, Some [0x4ea0]);
   (0x2f08, 0x2f08, Mapped, Some [0x4eba]); (0x2f09, 0x2f09, Mapped, Some [0x513f]); (0x2f0a, 0x2f0a, Mapped, Some [0x5165]);
   (0x2f0b, 0x2f0b, Mapped, Some [0x516b]); (0x2f0c, 0x2f0c, Mapped, Some [0x5182]); (0x2f0d, 0x2f0d, Mapped, Some [0x5196]);
   (0x2f0e, 0x2f0e, Mapped, Some [0x51ab]); (0x2f0f, 0x2f0f, Mapped, Some [0x51e0]); (0x2f10, 0x2f10, Mapped, Some [0x51f5]);
   (0x2f11, 0x2f11, Mapped, Some [0x5200]); (0x2f12, 0x2f12, Mapped, Some [0x529b]); (0x2f13, 0x2f13, Mapped, Some [0x52f9]);
   (0x2f14, 0x2f14, Mapped, Some [0x5315]); (0x2f15, 0x2f15, Mapped, Some [0x531a]); (0x2f16, 0x2f16, Mapped, Some [0x5338]);
   (0x2f17, 0x2f17, Mapped, Some [0x5341]); (0x2f18, 0x2f18, Mapped, Some [0x535c]); (0x2f19, 0x2f19, Mapped, Some [0x5369]);
   (0x2f1a, 0x2f1a, Mapped, Some [0x5382]); (0x2f1b, 0x2f1b, Mapped, Some [0x53b6]); (0x2f1c, 0x2f1c, Mapped, Some [0x53c8]);
   (0x2f1d, 0x2f1d, Mapped, Some [0x53e3]); (0x2f1e, 0x2f1e, Mapped, Some [0x56d7]); (0x2f1f, 0x2f1f, Mapped, Some [0x571f]);
   (0x2f20, 0x2f20, Mapped, Some [0x58eb]); (0x2f21, 0x2f21, Mapped, Some [0x5902]); (0x2f22, 0x2f22, Mapped, Some [0x590a]);
   (0x2f23, 0x2f23, Mapped, Some [0x5915]); (0x2f24, 0x2f24, Mapped, Some [0x5927]); (0x2f25, 0x2f25, Mapped, Some [0x5973]);
   (0x2f26, 0x2f26, Mapped, Some [0x5b50]); (0x2f27, 0x2f27, Mapped, Some [0x5b80]); (0x2f28, 0x2f28, Mapped, Some [0x5bf8]);
   (0x2f29, 0x2f29, Mapped, Some [0x5c0f]); (0x2f2a, 0x2f2a, Mapped, Some [0x5c22]); (0x2f2b, 0x2f2b, Mapped, Some [0x5c38]);
   (0x2f2c, 0x2f2c, Mapped, Some [0x5c6e]); (0x2f2d, 0x2f2d, Mapped, Some [0x5c71]); (0x2f2e, 0x2f2e, Mapped, Some [0x5ddb]);
   (0x2f2f, 0x2f2f, Mapped, Some [0x5de5]); (0x2f30, 0x2f30, Mapped, Some [0x5df1]); (0x2f31, 0x2f31, Mapped, Some [0x5dfe]);
   (0x2f32, 0x2f32, Mapped, Some [0x5e72]); (0x2f33, 0x2f33, Mapped, Some [0x5e7a]); (0x2f34, 0x2f34, Mapped, Some [0x5e7f]);
   (0x2f35, 0x2f35, Mapped, Some [0x5ef4]); (0x2f36, 0x2f36, Mapped, Some [0x5efe]); (0x2f37, 0x2f37, Mapped, Some [0x5f0b]);
   (0x2f38, 0x2f38, Mapped, Some [0x5f13]); (0x2f39, 0x2f39, Mapped, Some [0x5f50]); (0x2f3a, 0x2f3a, Mapped, Some [0x5f61]);
   (0x2f3b, 0x2f3b, Mapped, Some [0x5f73]); (0x2f3c, 0x2f3c, Mapped, Some [0x5fc3]); (0x2f3d, 0x2f3d, Mapped, Some [0x6208]);
   (0x2f3e, 0x2f3e, Mapped, Some [0x6236]); (0x2f3f, 0x2f3f, Mapped, Some [0x624b]); (0x2f40, 0x2f40, Mapped, Some [0x652f]);
   (0x2f41, 0x2f41, Mapped, Some [0x6534]); (0x2f42, 0x2f42, Mapped, Some [0x6587]); (0x2f43, 0x2f43, Mapped, Some [0x6597]);
   (0x2f44, 0x2f44, Mapped, Some [0x65a4]); (0x2f45, 0x2f45, Mapped, Some [0x65b9]); (0x2f46, 0x2f46, Mapped, Some [0x65e0]);
   (0x2f47, 0x2f47, Mapped, Some [0x65e5]); (0x2f48, 0x2f48, Mapped, Some [0x66f0]); (0x2f49, 0x2f49, Mapped, Some [0x6708]);
   (0x2f4a, 0x2f4a, Mapped, Some [0x6728]); (0x2f4b, 0x2f4b, Mapped, Some [0x6b20]); (0x2f4c, 0x2f4c, Mapped, Some [0x6b62]);
   (0x2f4d, 0x2f4d, Mapped, Some [0x6b79]); (0x2f4e, 0x2f4e, Mapped, Some [0x6bb3]); (0x2f4f, 0x2f4f, Mapped, Some [0x6bcb]);
   (0x2f50, 0x2f50, Mapped, Some [0x6bd4]); (0x2f51, 0x2f51, Mapped, Some [0x6bdb]); (0x2f52, 0x2f52, Mapped, Some [0x6c0f]);
   (0x2f53, 0x2f53, Mapped, Some [0x6c14]); (0x2f54, 0x2f54, Mapped, Some [0x6c34]); (0x2f55, 0x2f55, Mapped, Some [0x706b]);
   (0x2f56, 0x2f56, Mapped, Some [0x722a]); (0x2f57, 0x2f57, Mapped, Some [0x7236]); (0x2f58, 0x2f58, Mapped, Some [0x723b]);
   (0x2f59, 0x2f59, Mapped, Some [0x723f]); (0x2f5a, 0x2f5a, Mapped, Some [0x7247]); (0x2f5b, 0x2f5b, Mapped, Some [0x7259]);
   (0x2f5c, 0x2f5c, Mapped, Some [0x725b]); (0x2f5d, 0x2f5d, Mapped, Some [0x72ac]); (0x2f5e, 0x2f5e, Mapped, Some [0x7384]);
   (0x2f5f, 0x2f5f, Mapped, Some [0x7389]); (0x2f60, 0x2f60, Mapped, Some [0x74dc]); (0x2f61, 0x2f61, Mapped, Some [0x74e6]);
   (0x2f62, 0x2f62, Mapped, Some [0x7518]); (0x2f63, 0x2f63, Mapped, Some [0x751f]); (0x2f64, 0x2f64, Mapped, Some [0x7528]);
   (0x2f65, 0x2f65, Mapped, Some [0x7530]); (0x2f66, 0x2f66, Mapped, Some [0x758b]); (0x2f67, 0x2f67, Mapped, Some [0x7592]);
   (0x2f68, 0x2f68, Mapped, Some [0x7676]); (0x2f69, 0x2f69, Mapped, Some [0x767d]); (0x2f6a, 0x2f6a, Mapped, Some [0x76ae]);
   (0x2f6b, 0x2f6b, Mapped, Some [0x76bf]); (0x2f6c, 0x2f6c, Mapped, Some [0x76ee]); (0x2f6d, 0x2f6d, Mapped, Some [0x77db]);
   (0x2f6e, 0x2f6e, Mapped, Some [0x77e2]); (0x2f6f, 0x2f6f, Mapped, Some [0x77f3]); (0x2f70, 0x2f70, Mapped, Some [0x793a]);
   (0x2f71, 0x2f71, Mapped, Some [0x79b8]); (0x2f72, 0x2f72, Mapped, Some [0x79be]); (0x2f73, 0x2f73, Mapped, Some [0x7a74]);
   (0x2f74, 0x2f74, Mapped, Some [0x7acb]); (0x2f75, 0x2f75, Mapped, Some [0x7af9]); (0x2f76, 0x2f76, Mapped, Some [0x7c73]);
   (0x2f77, 0x2f77, Mapped, Some [0x7cf8]); (0x2f78, 0x2f78, Mapped, Some [0x7f36]); (0x2f79, 0x2f79, Mapped, Some [0x7f51]);
   (0x2f7a, 0x2f7a, Mapped, Some [0x7f8a]); (0x2f7b, 0x2f7b, Mapped, Some [0x7fbd]); (0x2f7c, 0x2f7c, Mapped, Some [0x8001]);
   (0x2f7d, 0x2f7d, Mapped, Some [0x800c]); (0x2f7e, 0x2f7e, Mapped, Some [0x8012]); (0x2f7f, 0x2f7f, Mapped, Some [0x8033]);
   (0x2f80, 0x2f80, Mapped, Some [0x807f]); (0x2f81, 0x2f81, Mapped, Some [0x8089]); (0x2f82, 0x2f82, Mapped, Some [0x81e3]);
   (0x2f83, 0x2f83, Mapped, Some [0x81ea]); (0x2f84, 0x2f84, Mapped, Some [0x81f3]); (0x2f85, 0x2f85, Mapped, Some [0x81fc]);
   (0x2f86, 0x2f86, Mapped, Some [0x820c]); (0x2f87, 0x2f87, Mapped, Some [0x821b]); (0x2f88, 0x2f88, Mapped, Some [0x821f]);
   (0x2f89, 0x2f89, Mapped, Some [0x826e]); (0x2f8a, 0x2f8a, Mapped, Some [0x8272]); (0x2f8b, 0x2f8b, Mapped, Some [0x8278]);
   (0x2f8c, 0x2f8c, Mapped, Some [0x864d]); (0x2f8d, 0x2f8d, Mapped, Some [0x866b]); (0x2f8e, 0x2f8e, Mapped, Some [0x8840]);
   (0x2f8f, 0x2f8f, Mapped, Some [0x884c]); (0x2f90, 0x2f90, Mapped, Some [0x8863]); (0x2f91, 0x2f91, Mapped, Some [0x897e]);
   (0x2f92, 0x2f92, Mapped, Some [0x898b]); (0x2f93, 0x2f93, Mapped, Some [0x89d2]); (0x2f94, 0x2f94, Mapped, Some [0x8a00]);
   (0x2f95, 0x2f95, Mapped, Some [0x8c37]); (0x2f96, 0x2f96, Mapped, Some [0x8c46]); (0x2f97, 0x2f97, Mapped, Some [0x8c55]);
   (0x2f98, 0x2f98, Mapped, Some [0x8c78]); (0x2f99, 0x2f99, Mapped, Some [0x8c9d]); (0x2f9a, 0x2f9a, Mapped, Some [0x8d64]);
   (0x2f9b, 0x2f9b, Mapped, Some [0x8d70]); (0x2f9c, 0x2f9c, Mapped, Some [0x8db3]); (0x2f9d, 0x2f9d, Mapped, Some [0x8eab]);
   (0x2f9e, 0x2f9e, Mapped, Some [0x8eca]); (0x2f9f, 0x2f9f, Mapped, Some [0x8f9b]); (0x2fa0, 0x2fa0, Mapped, Some [0x8fb0]);
   (0x2fa1, 0x2fa1, Mapped, Some [0x8fb5]); (0x2fa2, 0x2fa2, Mapped, Some [0x9091]); (0x2fa3, 0x2fa3, Mapped, Some [0x9149]);
   (0x2fa4, 0x2fa4, Mapped, Some [0x91c6]); (0x2fa5, 0x2fa5, Mapped, Some [0x91cc]); (0x2fa6, 0x2fa6, Mapped, Some [0x91d1]);
   (0x2fa7, 0x2fa7, Mapped, Some [0x9577]); (0x2fa8, 0x2fa8, Mapped, Some [0x9580]); (0x2fa9, 0x2fa9, Mapped, Some [0x961c]);
   (0x2faa, 0x2faa, Mapped, Some [0x96b6]); (0x2fab, 0x2fab, Mapped, Some [0x96b9]); (0x2fac, 0x2fac, Mapped, Some [0x96e8]);
   (0x2fad, 0x2fad, Mapped, Some [0x9751]); (0x2fae, 0x2fae, Mapped, Some [0x975e]); (0x2faf, 0x2faf, Mapped, Some [0x9762]);
   (0x2fb0, 0x2fb0, Mapped, Some [0x9769]); (0x2fb1, 0x2fb1, Mapped, Some [0x97cb]); (0x2fb2, 0x2fb2, Mapped, Some [0x97ed]);
   (0x2fb3, 0x2fb3, Mapped, Some [0x97f3]); (0x2fb4, 0x2fb4, Mapped, Some [0x9801]); (0x2fb5, 0x2fb5, Mapped, Some [0x98a8]);
   (0x2fb6, 0x2fb6, Mapped, Some [0x98db]); (0x2fb7, 0x2fb7, Mapped, Some [0x98df]); (0x2fb8, 0x2fb8, Mapped, Some [0x9996]);
   (0x2fb9, 0x2fb9, Mapped, Some [0x9999]); (0x2fba, 0x2fba, Mapped, Some [0x99ac]); (0x2fbb, 0x2fbb, Mapped, Some [0x9aa8]);
   (0x2fbc, 0x2fbc, Mapped, Some [0x9ad8]); (0x2fbd, 0x2fbd, Mapped, Some [0x9adf]); (0x2fbe, 0x2fbe, Mapped, Some [0x9b25]);
   (0x2fbf, 0x2fbf, Mapped, Some [0x9b2f]); (0x2fc0, 0x2fc0, Mapped, Some [0x9b32]); (0x2fc1, 0x2fc1, Mapped, Some [0x9b3c]);
   (0x2fc2, 0x2fc2, Mapped, Some [0x9b5a]); (0x2fc3, 0x2fc3, Mapped, Some [0x9ce5]); (0x2fc4, 0x2fc4, Mapped, Some [0x9e75]);
   (0x2fc5, 0x2fc5, Mapped, Some [0x9e7f]); (0x2fc6, 0x2fc6, Mapped, Some [0x9ea5]); (0x2fc7, 0x2fc7, Mapped, Some [0x9ebb]);
   (0x2fc8, 0x2fc8, Mapped, Some [0x9ec3]); (0x2fc9, 0x2fc9, Mapped, Some [0x9ecd]); (0x2fca, 0x2fca, Mapped, Some [0x9ed1]);
   (0x2fcb, 0x2fcb, Mapped, Some [0x9ef9]); (0x2fcc, 0x2fcc, Mapped, Some [0x9efd]); (0x2fcd, 0x2fcd, Mapped, Some [0x9f0e]);
   (0x2fce, 0x2fce, Mapped, Some [0x9f13]); (0x2fcf, 0x2fcf, Mapped, Some [0x9f20]); (0x2fd0, 0x2fd0, Mapped, Some [0x9f3b]);
   (0x2fd1, 0x2fd1, Mapped, Some [0x9f4a]); (0x2fd2, 0x2fd2, Mapped, Some [0x9f52]); (0x2fd3, 0x2fd3, Mapped, Some [0x9f8d]);
   (0x2fd4, 0x2fd4, Mapped, Some [0x9f9c]); (0x2fd5, 0x2fd5, Mapped, Some [0x9fa0]); (0x2fd6, 0x2fef, Disallowed, None);
   (0x2ff0, 0x2ffb, Disallowed, None); (0x2ffc, 0x2fff, Disallowed, None); (0x3000, 0x3000, Std3_mapped, Some [0x20]);
   (0x3001, 0x3001, Valid, Some []); (0x3002, 0x3002, Mapped, Some [0x2e]); (0x3003, 0x3004, Valid, Some []);
   (0x3005, 0x3007, Valid, None); (0x3008, 0x3029, Valid, Some []); (0x302a, 0x302d, Valid, None);
   (0x302e, 0x3035, Valid, Some []); (0x3036, 0x3036, Mapped, Some [0x3012]); (0x3037, 0x3037, Valid, Some []);
   (0x3038, 0x3038, Mapped, Some [0x5341]); (0x3039, 0x3039, Mapped, Some [0x5344]); (0x303a, 0x303a, Mapped, Some [0x5345]);
   (0x303b, 0x303b, Valid, Some []); (0x303c, 0x303c, Valid, None); (0x303d, 0x303d, Valid, Some []);
   (0x303e, 0x303e, Valid, Some []); (0x303f, 0x303f, Valid, Some []); (0x3040, 0x3040, Disallowed, None);
   (0x3041, 0x3094, Valid, None); (0x3095, 0x3096, Valid, None); (0x3097, 0x3098, Disallowed, None);
   (0x3099, 0x309a, Valid, None); (0x309b, 0x309b, Std3_mapped, Some [0x20; 0x3099]); (0x309c, 0x309c, Std3_mapped, Some [0x20; 0x309a]);
   (0x309d, 0x309e, Valid, None); (0x309f, 0x309f, Mapped, Some [0x3088; 0x308a]); (0x30a0, 0x30a0, Valid, Some []);
   (0x30a1, 0x30fe, Valid, None); (0x30ff, 0x30ff, Mapped, Some [0x30b3; 0x30c8]); (0x3100, 0x3104, Disallowed, None);
   (0x3105, 0x312c, Valid, None); (0x312d, 0x312d, Valid, None); (0x312e, 0x312e, Valid, None);
   (0x312f, 0x312f, Valid, None); (0x3130, 0x3130, Disallowed, None); (0x3131, 0x3131, Mapped, Some [0x1100]);
   (0x3132, 0x3132, Mapped, Some [0x1101]); (0x3133, 0x3133, Mapped, Some [0x11aa]); (0x3134, 0x3134, Mapped, Some [0x1102]);
   (0x3135, 0x3135, Mapped, Some [0x11ac]); (0x3136, 0x3136, Mapped, Some [0x11ad]); (0x3137, 0x3137, Mapped, Some [0x1103]);
   (0x3138, 0x3138, Mapped, Some [0x1104]); (0x3139, 0x3139, Mapped, Some [0x1105]); (0x313a, 0x313a, Mapped, Some [0x11b0]);
   (0x313b, 0x313b, Mapped, Some [0x11b1]); (0x313c, 0x313c, Mapped, Some [0x11b2]); (0x313d, 0x313d, Mapped, Some [0x11b3]);
   (0x313e, 0x313e, Mapped, Some [0x11b4]); (0x313f, 0x313f, Mapped, Some [0x11b5]); (0x3140, 0x3140, Mapped, Some [0x111a]);
   (0x3141, 0x3141, Mapped, Some [0x1106]); (0x3142, 0x3142, Mapped, Some [0x1107]); (0x3143, 0x3143, Mapped, Some [0x1108]);
   (0x3144, 0x3144, Mapped, Some [0x1121]); (0x3145, 0x3145, Mapped, Some [0x1109]); (0x3146, 0x3146, Mapped, Some [0x110a]);
   (0x3147, 0x3147, Mapped, Some [0x110b]); (0x3148, 0x3148, Mapped, Some [0x110c]); (0x3149, 0x3149, Mapped, Some [0x110d]);
   (0x314a, 0x314a, Mapped, Some [0x110e]); (0x314b, 0x314b, Mapped, Some [0x110f]); (0x314c, 0x314c, Mapped, Some [0x1110]);
   (0x314d, 0x314d, Mapped, Some [0x1111]); (0x314e, 0x314e, Mapped, Some [0x1112]); (0x314f, 0x314f, Mapped, Some [0x1161]);
   (0x3150, 0x3150, Mapped, Some [0x1162]); (0x3151, 0x3151, Mapped, Some [0x1163]); (0x3152, 0x3152, Mapped, Some [0x1164]);
   (0x3153, 0x3153, Mapped, Some [0x1165]); (0x3154, 0x3154, Mapped, Some [0x1166]); (0x3155, 0x3155, Mapped, Some [0x1167]);
   (0x3156, 0x3156, Mapped, Some [0x1168]); (0x3157, 0x3157, Mapped, Some [0x1169]); (0x3158, 0x3158, Mapped, Some [0x116a]);
   (0x3159, 0x3159, Mapped, Some [0x116b]); (0x315a, 0x315a, Mapped, Some [0x116c]); (0x315b, 0x315b, Mapped, Some [0x116d]);
   (0x315c, 0x315c, Mapped, Some [0x116e]); (0x315d, 0x315d, Mapped, Some [0x116f]); (0x315e, 0x315e, Mapped, Some [0x1170]);
   (0x315f, 0x315f, Mapped, Some [0x1171]); (0x3160, 0x3160, Mapped, Some [0x1172]); (0x3161, 0x3161, Mapped, Some [0x1173]);
   (0x3162, 0x3162, Mapped, Some [0x1174]); (0x3163, 0x3163, Mapped, Some [0x1175]); (0x3164, 0x3164, Disallowed, None);
   (0x3165, 0x3165, Mapped, Some [0x1114]); (0x3166, 0x3166, Mapped, Some [0x1115]); (0x3167, 0x3167, Mapped, Some [0x11c7]);
   (0x3168, 0x3168, Mapped, Some [0x11c8]); (0x3169, 0x3169, Mapped, Some [0x11cc]); (0x316a, 0x316a, Mapped, Some [0x11ce]);
   (0x316b, 0x316b, Mapped, Some [0x11d3]); (0x316c, 0x316c, Mapped, Some [0x11d7]); (0x316d, 0x316d, Mapped, Some [0x11d9]);
   (0x316e, 0x316e, Mapped, Some [0x111c]); (0x316f, 0x316f, Mapped, Some [0x11dd]); (0x3170, 0x3170, Mapped, Some [0x11df]);
   (0x3171, 0x3171, Mapped, Some [0x111d]); (0x3172, 0x3172, Mapped, Some [0x111e]); (0x3173, 0x3173, Mapped, Some [0x1120]);
   (0x3174, 0x3174, Mapped, Some [0x1122]); (0x3175, 0x3175, Mapped, Some [0x1123]); (0x3176, 0x3176, Mapped, Some [0x1127]);
   (0x3177, 0x3177, Mapped, Some [0x1129]); (0x3178, 0x3178, Mapped, Some [0x112b]); (0x3179, 0x3179, Mapped, Some [0x112c]);
   (0x317a, 0x317a, Mapped, Some [0x112d]); (0x317b, 0x317b, Mapped, Some [0x112e]); (0x317c, 0x317c, Mapped, Some [0x112f]);
   (0x317d, 0x317d, Mapped, Some [0x1132]); (0x317e, 0x317e, Mapped, Some [0x1136]); (0x317f, 0x317f, Mapped, Some [0x1140]);
   (0x3180, 0x3180, Mapped, Some [0x1147]); (0x3181, 0x3181, Mapped, Some [0x114c]); (0x3182, 0x3182, Mapped, Some [0x11f1]);
   (0x3183, 0x3183, Mapped, Some [0x11f2]); (0x3184, 0x3184, Mapped, Some [0x1157]); (0x3185, 0x3185, Mapped, Some [0x1158]);
   (0x3186, 0x3186, Mapped, Some [0x1159]); (0x3187, 0x3187, Mapped, Some [0x1184]); (0x3188, 0x3188, Mapped, Some [0x1185]);
   (0x3189, 0x3189, Mapped, Some [0x1188]); (0x318a, 0x318a, Mapped, Some [0x1191]); (0x318b, 0x318b, Mapped, Some [0x1192]);
   (0x318c, 0x318c, Mapped, Some [0x1194]); (0x318d, 0x318d, Mapped, Some [0x119e]); (0x318e, 0x318e, Mapped, Some [0x11a1]);
   (0x318f, 0x318f, Disallowed, None); (0x3190, 0x3191, Valid, Some []); (0x3192, 0x3192, Mapped, Some [0x4e00]);
   (0x3193, 0x3193, Mapped, Some [0x4e8c]); (0x3194, 0x3194, Mapped, Some [0x4e09]); (0x3195, 0x3195, Mapped, Some [0x56db]);
   (0x3196, 0x3196, Mapped, Some [0x4e0a]); (0x3197, 0x3197, Mapped, Some [0x4e2d]); (0x3198, 0x3198, Mapped, Some [0x4e0b]);
   (0x3199, 0x3199, Mapped, Some [0x7532]); (0x319a, 0x319a, Mapped, Some [0x4e59]); (0x319b, 0x319b, Mapped, Some [0x4e19]);
   (0x319c, 0x319c, Mapped, Some [0x4e01]); (0x319d, 0x319d, Mapped, Some [0x5929]); (0x319e, 0x319e, Mapped, Some [0x5730]);
   (0x319f, 0x319f, Mapped, Some [0x4eba]); (0x31a0, 0x31b7, Valid, None); (0x31b8, 0x31ba, Valid, None);
   (0x31bb, 0x31bf, Valid, None); (0x31c0, 0x31cf, Valid, Some []); (0x31d0, 0x31e3, Valid, Some []);
   (0x31e4, 0x31ef, Disallowed, None); (0x31f0, 0x31ff, Valid, None); (0x3200, 0x3200, Std3_mapped, Some [0x28; 0x1100; 0x29]);
   (0x3201, 0x3201, Std3_mapped, Some [0x28; 0x1102; 0x29]); (0x3202, 0x3202, Std3_mapped, Some [0x28; 0x1103; 0x29]); (0x3203, 0x3203, Std3_mapped, Some [0x28; 0x1105; 0x29]);
   (0x3204, 0x3204, Std3_mapped, Some [0x28; 0x1106; 0x29]); (0x3205, 0x3205, Std3_mapped, Some [0x28; 0x1107; 0x29]); (0x3206, 0x3206, Std3_mapped, Some [0x28; 0x1109; 0x29]);
   (0x3207, 0x3207, Std3_mapped, Some [0x28; 0x110b; 0x29]); (0x3208, 0x3208, Std3_mapped, Some [0x28; 0x110c; 0x29]); (0x3209, 0x3209, Std3_mapped, Some [0x28; 0x110e; 0x29]);
   (0x320a, 0x320a, Std3_mapped, Some [0x28; 0x110f; 0x29]); (0x320b, 0x320b, Std3_mapped, Some [0x28; 0x1110; 0x29]); (0x320c, 0x320c, Std3_mapped, Some [0x28; 0x1111; 0x29]);
   (0x320d, 0x320d, Std3_mapped, Some [0x28; 0x1112; 0x29]); (0x320e, 0x320e, Std3_mapped, Some [0x28; 0xac00; 0x29]); (0x320f, 0x320f, Std3_mapped, Some [0x28; 0xb098; 0x29]);
   (0x3210, 0x3210, Std3_mapped, Some [0x28; 0xb2e4; 0x29]); (0x3211, 0x3211, Std3_mapped, Some [0x28; 0xb77c; 0x29]); (0x3212, 0x3212, Std3_mapped, Some [0x28; 0xb9c8; 0x29]);
   (0x3213, 0x3213, Std3_mapped, Some [0x28; 0xbc14; 0x29]); (0x3214, 0x3214, Std3_mapped, Some [0x28; 0xc0ac; 0x29]); (0x3215, 0x3215, Std3_mapped, Some [0x28; 0xc544; 0x29]);
   (0x3216, 0x3216, Std3_mapped, Some [0x28; 0xc790; 0x29]); (0x3217, 0x3217, Std3_mapped, Some [0x28; 0xcc28; 0x29]); (0x3218, 0x3218, Std3_mapped, Some [0x28; 0xce74; 0x29]);
   (0x3219, 0x3219, Std3_mapped, Some [0x28; 0xd0c0; 0x29]); (0x321a, 0x321a, Std3_mapped, Some [0x28; 0xd30c; 0x29]); (0x321b, 0x321b, Std3_mapped, Some [0x28; 0xd558; 0x29]);
   (0x321c, 0x321c, Std3_mapped, Some [0x28; 0xc8fc; 0x29]); (0x321d, 0x321d, Std3_mapped, Some [0x28; 0xc624; 0xc804; 0x29]); (0x321e, 0x321e, Std3_mapped, Some [0x28; 0xc624; 0xd6c4; 0x29]);
   (0x321f, 0x321f, Disallowed, None); (0x3220, 0x3220, Std3_mapped, Some [0x28; 0x4e00; 0x29]); (0x3221, 0x3221, Std3_mapped, Some [0x28; 0x4e8c; 0x29]);
   (0x3222, 0x3222, Std3_mapped, Some [0x28; 0x4e09; 0x29]); (0x3223, 0x3223, Std3_mapped, Some [0x28; 0x56db; 0x29]); (0x3224, 0x3224, Std3_mapped, Some [0x28; 0x4e94; 0x29]);
   (0x3225, 0x3225, Std3_mapped, Some [0x28; 0x516d; 0x29]); (0x3226, 0x3226, Std3_mapped, Some [0x28; 0x4e03; 0x29]); (0x3227, 0x3227, Std3_mapped, Some [0x28; 0x516b; 0x29]);
   (0x3228, 0x3228, Std3_mapped, Some [0x28; 0x4e5d; 0x29]); (0x3229, 0x3229, Std3_mapped, Some [0x28; 0x5341; 0x29]); (0x322a, 0x322a, Std3_mapped, Some [0x28; 0x6708; 0x29]);
   (0x322b, 0x322b, Std3_mapped, Some [0x28; 0x706b; 0x29]); (0x322c, 0x322c, Std3_mapped, Some [0x28; 0x6c34; 0x29]); (0x322d, 0x322d, Std3_mapped, Some [0x28; 0x6728; 0x29]);
   (0x322e, 0x322e, Std3_mapped, Some [0x28; 0x91d1; 0x29]); (0x322f, 0x322f, Std3_mapped, Some [0x28; 0x571f; 0x29]); (0x3230, 0x3230, Std3_mapped, Some [0x28; 0x65e5; 0x29]);
   (0x3231, 0x3231, Std3_mapped, Some [0x28; 0x682a; 0x29]); (0x3232, 0x3232, Std3_mapped, Some [0x28; 0x6709; 0x29]); (0x3233, 0x3233, Std3_mapped, Some [0x28; 0x793e; 0x29]);
   (0x3234, 0x3234, Std3_mapped, Some [0x28; 0x540d; 0x29]); (0x3235, 0x3235, Std3_mapped, Some [0x28; 0x7279; 0x29]); (0x3236, 0x3236, Std3_mapped, Some [0x28; 0x8ca1; 0x29]);
   (0x3237, 0x3237, Std3_mapped, Some [0x28; 0x795d; 0x29]); (0x3238, 0x3238, Std3_mapped, Some [0x28; 0x52b4; 0x29]); (0x3239, 0x3239, Std3_mapped, Some [0x28; 0x4ee3; 0x29]);
   (0x323a, 0x323a, Std3_mapped, Some [0x28; 0x547c; 0x29]); (0x323b, 0x323b, Std3_mapped, Some [0x28; 0x5b66; 0x29]); (0x323c, 0x323c, Std3_mapped, Some [0x28; 0x76e3; 0x29]);
   (0x323d, 0x323d, Std3_mapped, Some [0x28; 0x4f01; 0x29]); (0x323e, 0x323e, Std3_mapped, Some [0x28; 0x8cc7; 0x29]); (0x323f, 0x323f, Std3_mapped, Some [0x28; 0x5354; 0x29]);
   (0x3240, 0x3240, Std3_mapped, Some [0x28; 0x796d; 0x29]); (0x3241, 0x3241, Std3_mapped, Some [0x28; 0x4f11; 0x29]); (0x3242, 0x3242, Std3_mapped, Some [0x28; 0x81ea; 0x29]);
   (0x3243, 0x3243, Std3_mapped, Some [0x28; 0x81f3; 0x29]); (0x3244, 0x3244, Mapped, Some [0x554f]); (0x3245, 0x3245, Mapped, Some [0x5e7c]);
   (0x3246, 0x3246, Mapped, Some [0x6587]); (0x3247, 0x3247, Mapped, Some [0x7b8f]); (0x3248, 0x324f, Valid, Some []);
   (0x3250, 0x3250, Mapped, Some [0x70; 0x74; 0x65]); (0x3251, 0x3251, Mapped, Some [0x32; 0x31]); (0x3252, 0x3252, Mapped, Some [0x32; 0x32]);
   (0x3253, 0x3253, Mapped, Some [0x32; 0x33]); (0x3254, 0x3254, Mapped, Some [0x32; 0x34]); (0x3255, 0x3255, Mapped, Some [0x32; 0x35]);
   (0x3256, 0x3256, Mapped, Some [0x32; 0x36]); (0x3257, 0x3257, Mapped, Some [0x32; 0x37]); (0x3258, 0x3258, Mapped, Some [0x32; 0x38]);
   (0x3259, 0x3259, Mapped, Some [0x32; 0x39]); (0x325a, 0x325a, Mapped, Some [0x33; 0x30]); (0x325b, 0x325b, Mapped, Some [0x33; 0x31]);
   (0x325c, 0x325c, Mapped, Some [0x33; 0x32]); (0x325d, 0x325d, Mapped, Some [0x33; 0x33]); (0x325e, 0x325e, Mapped, Some [0x33; 0x34]);
   (0x325f, 0x325f, Mapped, Some [0x33; 0x35]); (0x3260, 0x3260, Mapped, Some [0x1100]); (0x3261, 0x3261, Mapped, Some [0x1102]);
   (0x3262, 0x3262, Mapped, Some [0x1103]); (0x3263, 0x3263, Mapped, Some [0x1105]); (0x3264, 0x3264, Mapped, Some [0x1106]);
   (0x3265, 0x3265, Mapped, Some [0x1107]); (0x3266, 0x3266, Mapped, Some [0x1109]); (0x3267, 0x3267, Mapped, Some [0x110b]);
   (0x3268, 0x3268, Mapped, Some [0x110c]); (0x3269, 0x3269, Mapped, Some [0x110e]); (0x326a, 0x326a, Mapped, Some [0x110f]);
   (0x326b, 0x326b, Mapped, Some [0x1110]); (0x326c, 0x326c, Mapped, Some [0x1111]); (0x326d, 0x326d, Mapped, Some [0x1112]);
   (0x326e, 0x326e, Mapped, Some [0xac00]); (0x326f, 0x326f, Mapped, Some [0xb098]); (0x3270, 0x3270, Mapped, Some [0xb2e4]);
   (0x3271, 0x3271, Mapped, Some [0xb77c]); (0x3272, 0x3272, Mapped, Some [0xb9c8]); (0x3273, 0x3273, Mapped, Some [0xbc14]);
   (0x3274, 0x3274, Mapped, Some [0xc0ac]); (0x3275, 0x3275, Mapped, Some [0xc544]); (0x3276, 0x3276, Mapped, Some [0xc790]);
   (0x3277, 0x3277, Mapped, Some [0xcc28]); (0x3278, 0x3278, Mapped, Some [0xce74]); (0x3279, 0x3279, Mapped, Some [0xd0c0]);
   (0x327a, 0x327a, Mapped, Some [0xd30c]); (0x327b, 0x327b, Mapped, Some [0xd558]); (0x327c, 0x327c, Mapped, Some [0xcc38; 0xace0]);
   (0x327d, 0x327d, Mapped, Some [0xc8fc; 0xc758]); (0x327e, 0x327e, Mapped, Some [0xc6b0]); (0x327f, 0x327f, Valid, Some []);
   (0x3280, 0x3280, Mapped, Some [0x4e00]); (0x3281, 0x3281, Mapped, Some [0x4e8c]); (0x3282, 0x3282, Mapped, Some [0x4e09]);
   (0x3283, 0x3283, Mapped, Some [0x56db]); (0x3284, 0x3284, Mapped, Some [0x4e94]); (0x3285, 0x3285, Mapped, Some [0x516d]);
   (0x3286, 0x3286, Mapped, Some [0x4e03]); (0x3287, 0x3287, Mapped, Some [0x516b]); (0x3288, 0x3288, Mapped, Some [0x4e5d]);
   (0x3289, 0x3289, Mapped, Some [0x5341]); (0x328a, 0x328a, Mapped, Some [0x6708]); (0x328b, 0x328b, Mapped, Some [0x706b]);
   (0x328c, 0x328c, Mapped, Some [0x6c34]); (0x328d, 0x328d, Mapped, Some [0x6728]); (0x328e, 0x328e, Mapped, Some [0x91d1]);
   (0x328f, 0x328f, Mapped, Some [0x571f]); (0x3290, 0x3290, Mapped, Some [0x65e5]); (0x3291, 0x3291, Mapped, Some [0x682a]);
   (0x3292, 0x3292, Mapped, Some [0x6709]); (0x3293, 0x3293, Mapped, Some [0x793e]); (0x3294, 0x3294, Mapped, Some [0x540d]);
   (0x3295, 0x3295, Mapped, Some [0x7279]); (0x3296, 0x3296, Mapped, Some [0x8ca1]); (0x3297, 0x3297, Mapped, Some [0x795d]);
   (0x3298, 0x3298, Mapped, Some [0x52b4]); (0x3299, 0x3299, Mapped, Some [0x79d8]); (0x329a, 0x329a, Mapped, Some [0x7537]);
   (0x329b, 0x329b, Mapped, Some [0x5973]); (0x329c, 0x329c, Mapped, Some [0x9069]); (0x329d, 0x329d, Mapped, Some [0x512a]);
   (0x329e, 0x329e, Mapped, Some [0x5370]); (0x329f, 0x329f, Mapped, Some [0x6ce8]); (0x32a0, 0x32a0, Mapped, Some [0x9805]);
   (0x32a1, 0x32a1, Mapped, Some [0x4f11]); (0x32a2, 0x32a2, Mapped, Some [0x5199]); (0x32a3, 0x32a3, Mapped, Some [0x6b63]);
   (0x32a4, 0x32a4, Mapped, Some [0x4e0a]); (0x32a5, 0x32a5, Mapped, Some [0x4e2d]); (0x32a6, 0x32a6, Mapped, Some [0x4e0b]);
   (0x32a7, 0x32a7, Mapped, Some [0x5de6]); (0x32a8, 0x32a8, Mapped, Some [0x53f3]); (0x32a9, 0x32a9, Mapped, Some [0x533b]);
   (0x32aa, 0x32aa, Mapped, Some [0x5b97]); (0x32ab, 0x32ab, Mapped, Some [0x5b66]); (0x32ac, 0x32ac, Mapped, Some [0x76e3]);
   (0x32ad, 0x32ad, Mapped, Some [0x4f01]); (0x32ae, 0x32ae, Mapped, Some [0x8cc7]); (0x32af, 0x32af, Mapped, Some [0x5354]);
   (0x32b0, 0x32b0, Mapped, Some [0x591c]); (0x32b1, 0x32b1, Mapped, Some [0x33; 0x36]); (0x32b2, 0x32b2, Mapped, Some [0x33; 0x37]);
   (0x32b3, 0x32b3, Mapped, Some [0x33; 0x38]); (0x32b4, 0x32b4, Mapped, Some [0x33; 0x39]); (0x32b5, 0x32b5, Mapped, Some [0x34; 0x30]);
   (0x32b6, 0x32b6, Mapped, Some [0x34; 0x31]); (0x32b7, 0x32b7, Mapped, Some [0x34; 0x32]); (0x32b8, 0x32b8, Mapped, Some [0x34; 0x33]);
   (0x32b9, 0x32b9, Mapped, Some [0x34; 0x34]); (0x32ba, 0x32ba, Mapped, Some [0x34; 0x35]); (0x32bb, 0x32bb, Mapped, Some [0x34; 0x36]);
   (0x32bc, 0x32bc, Mapped, Some [0x34; 0x37]); (0x32bd, 0x32bd, Mapped, Some [0x34; 0x38]); (0x32be, 0x32be, Mapped, Some [0x34; 0x39]);
   (0x32bf, 0x32bf, Mapped, Some [0x35; 0x30]); (0x32c0, 0x32c0, Mapped, Some [0x31; 0x6708]); (0x32c1, 0x32c1, Mapped, Some [0x32; 0x6708]);
   (0x32c2, 0x32c2, Mapped, Some [0x33; 0x6708]); (0x32c3, 0x32c3, Mapped, Some [0x34; 0x6708]); (0x32c4, 0x32c4, Mapped, Some [0x35; 0x6708]);
   (0x32c5, 0x32c5, Mapped, Some [0x36; 0x6708]); (0x32c6, 0x32c6, Mapped, Some [0x37; 0x6708]); (0x32c7, 0x32c7, Mapped, Some [0x38; 0x6708]);
   (0x32c8, 0x32c8, Mapped, Some [0x39; 0x6708]); (0x32c9, 0x32c9, Mapped, Some [0x31; 0x30; 0x6708]); (0x32ca, 0x32ca, Mapped, Some [0x31; 0x31; 0x6708]);
   (0x32cb, 0x32cb, Mapped, Some [0x31; 0x32; 0x6708]); (0x32cc, 0x32cc, Mapped, Some [0x68; 0x67]); (0x32cd, 0x32cd, Mapped, Some [0x65; 0x72; 0x67]);
   (0x32ce, 0x32ce, Mapped, Some [0x65; 0x76]); (0x32cf, 0x32cf, Mapped, Some [0x6c; 0x74; 0x64]); (0x32d0, 0x32d0, Mapped, Some [0x30a2]);
   (0x32d1, 0x32d1, Mapped, Some [0x30a4]); (0x32d2, 0x32d2, Mapped, Some [0x30a6]); (0x32d3, 0x32d3, Mapped, Some [0x30a8]);
   (0x32d4, 0x32d4, Mapped, Some [0x30aa]); (0x32d5, 0x32d5, Mapped, Some [0x30ab]); (0x32d6, 0x32d6, Mapped, Some [0x30ad]);
   (0x32d7, 0x32d7, Mapped, Some [0x30af]); (0x32d8, 0x32d8, Mapped, Some [0x30b1]); (0x32d9, 0x32d9, Mapped, Some [0x30b3]);
   (0x32da, 0x32da, Mapped, Some [0x30b5]); (0x32db, 0x32db, Mapped, Some [0x30b7]); (0x32dc, 0x32dc, Mapped, Some [0x30b9]);
   (0x32dd, 0x32dd, Mapped, Some [0x30bb]); (0x32de, 0x32de, Mapped, Some [0x30bd]); (0x32df, 0x32df, Mapped, Some [0x30bf]);
   (0x32e0, 0x32e0, Mapped, Some [0x30c1]); (0x32e1, 0x32e1, Mapped, Some [0x30c4]); (0x32e2, 0x32e2, Mapped, Some [0x30c6]);
   (0x32e3, 0x32e3, Mapped, Some [0x30c8]); (0x32e4, 0x32e4, Mapped, Some [0x30ca]); (0x32e5, 0x32e5, Mapped, Some [0x30cb]);
   (0x32e6, 0x32e6, Mapped, Some [0x30cc]); (0x32e7, 0x32e7, Mapped, Some [0x30cd]); (0x32e8, 0x32e8, Mapped, Some [0x30ce]);
   (0x32e9, 0x32e9, Mapped, Some [0x30cf]); (0x32ea, 0x32ea, Mapped, Some [0x30d2]); (0x32eb, 0x32eb, Mapped, Some [0x30d5]);
   (0x32ec, 0x32ec, Mapped, Some [0x30d8]); (0x32ed, 0x32ed, Mapped, Some [0x30db]); (0x32ee, 0x32ee, Mapped, Some [0x30de]);
   (0x32ef, 0x32ef, Mapped, Some [0x30df]); (0x32f0, 0x32f0, Mapped, Some [0x30e0]); (0x32f1, 0x32f1, Mapped, Some [0x30e1]);
   (0x32f2, 0x32f2, Mapped, Some [0x30e2]); (0x32f3, 0x32f3, Mapped, Some [0x30e4]); (0x32f4, 0x32f4, Mapped, Some [0x30e6]);
   (0x32f5, 0x32f5, Mapped, Some [0x30e8]); (0x32f6, 0x32f6, Mapped, Some [0x30e9]); (0x32f7, 0x32f7, Mapped, Some [0x30ea]);
   (0x32f8, 0x32f8, Mapped, Some [0x30eb]); (0x32f9, 0x32f9, Mapped, Some [0x30ec]); (0x32fa, 0x32fa, Mapped, Some [0x30ed]);
   (0x32fb, 0x32fb, Mapped, Some [0x30ef]); (0x32fc, 0x32fc, Mapped, Some [0x30f0]); (0x32fd, 0x32fd, Mapped, Some [0x30f1]);
   (0x32fe, 0x32fe, Mapped, Some [0x30f2]); (0x32ff, 0x32ff, Mapped, Some [0x4ee4; 0x548c]); (0x3300, 0x3300, Mapped, Some [0x30a2; 0x30d1; 0x30fc; 0x30c8]);
   (0x3301, 0x3301, Mapped, Some [0x30a2; 0x30eb; 0x30d5; 0x30a1]); (0x3302, 0x3302, Mapped, Some [0x30a2; 0x30f3; 0x30da; 0x30a2]); (0x3303, 0x3303, Mapped, Some [0x30a2; 0x30fc; 0x30eb]);
   (0x3304, 0x3304, Mapped, Some [0x30a4; 0x30cb; 0x30f3; 0x30b0]); (0x3305, 0x3305, Mapped, Some [0x30a4; 0x30f3; 0x30c1]); (0x3306, 0x3306, Mapped, Some [0x30a6; 0x30a9; 0x30f3]);
   (0x3307, 0x3307, Mapped, Some [0x30a8; 0x30b9; 0x30af; 0x30fc; 0x30c9]); (0x3308, 0x3308, Mapped, Some [0x30a8; 0x30fc; 0x30ab; 0x30fc]); (0x3309, 0x3309, Mapped, Some [0x30aa; 0x30f3; 0x30b9]);
   (0x330a, 0x330a, Mapped, Some [0x30aa; 0x30fc; 0x30e0]); (0x330b, 0x330b, Mapped, Some [0x30ab; 0x30a4; 0x30ea]); (0x330c, 0x330c, Mapped, Some [0x30ab; 0x30e9; 0x30c3; 0x30c8]);
   (0x330d, 0x330d, Mapped, Some [0x30ab; 0x30ed; 0x30ea; 0x30fc]); (0x330e, 0x330e, Mapped, Some [0x30ac; 0x30ed; 0x30f3]); (0x330f, 0x330f, Mapped, Some [0x30ac; 0x30f3; 0x30de]);
   (0x3310, 0x3310, Mapped, Some [0x30ae; 0x30ac]); (0x3311, 0x3311, Mapped, Some [0x30ae; 0x30cb; 0x30fc]); (0x3312, 0x3312, Mapped, Some [0x30ad; 0x30e5; 0x30ea; 0x30fc]);
   (0x3313, 0x3313, Mapped, Some [0x30ae; 0x30eb; 0x30c0; 0x30fc]); (0x3314, 0x3314, Mapped, Some [0x30ad; 0x30ed]); (0x3315, 0x3315, Mapped, Some [0x30ad; 0x30ed; 0x30b0; 0x30e9; 0x30e0]);
   (0x3316, 0x3316, Mapped, Some [0x30ad; 0x30ed; 0x30e1; 0x30fc; 0x30c8; 0x30eb]); (0x3317, 0x3317, Mapped, Some [0x30ad; 0x30ed; 0x30ef; 0x30c3; 0x30c8]); (0x3318, 0x3318, Mapped, Some [0x30b0; 0x30e9; 0x30e0]);
   (0x3319, 0x3319, Mapped, Some [0x30b0; 0x30e9; 0x30e0; 0x30c8; 0x30f3]); (0x331a, 0x331a, Mapped, Some [0x30af; 0x30eb; 0x30bc; 0x30a4; 0x30ed]); (0x331b, 0x331b, Mapped, Some [0x30af; 0x30ed; 0x30fc; 0x30cd]);
   (0x331c, 0x331c, Mapped, Some [0x30b1; 0x30fc; 0x30b9]); (0x331d, 0x331d, Mapped, Some [0x30b3; 0x30eb; 0x30ca]); (0x331e, 0x331e, Mapped, Some [0x30b3; 0x30fc; 0x30dd]);
   (0x331f, 0x331f, Mapped, Some [0x30b5; 0x30a4; 0x30af; 0x30eb]); (0x3320, 0x3320, Mapped, Some [0x30b5; 0x30f3; 0x30c1; 0x30fc; 0x30e0]); (0x3321, 0x3321, Mapped, Some [0x30b7; 0x30ea; 0x30f3; 0x30b0]);
   (0x3322, 0x3322, Mapped, Some [0x30bb; 0x30f3; 0x30c1]); (0x3323, 0x3323, Mapped, Some [0x30bb; 0x30f3; 0x30c8]); (0x3324, 0x3324, Mapped, Some [0x30c0; 0x30fc; 0x30b9]);
   (0x3325, 0x3325, Mapped, Some [0x30c7; 0x30b7]); (0x3326, 0x3326, Mapped, Some [0x30c9; 0x30eb]); (0x3327, 0x3327, Mapped, Some [0x30c8; 0x30f3]);
   (0x3328, 0x3328, Mapped, Some [0x30ca; 0x30ce]); (0x3329, 0x3329, Mapped, Some [0x30ce; 0x30c3; 0x30c8]); (0x332a, 0x332a, Mapped, Some [0x30cf; 0x30a4; 0x30c4]);
   (0x332b, 0x332b, Mapped, Some [0x30d1; 0x30fc; 0x30bb; 0x30f3; 0x30c8]); (0x332c, 0x332c, Mapped, Some [0x30d1; 0x30fc; 0x30c4]); (0x332d, 0x332d, Mapped, Some [0x30d0; 0x30fc; 0x30ec; 0x30eb]);
   (0x332e, 0x332e, Mapped, Some [0x30d4; 0x30a2; 0x30b9; 0x30c8; 0x30eb]); (0x332f, 0x332f, Mapped, Some [0x30d4; 0x30af; 0x30eb]); (0x3330, 0x3330, Mapped, Some [0x30d4; 0x30b3]);
   (0x3331, 0x3331, Mapped, Some [0x30d3; 0x30eb]); (0x3332, 0x3332, Mapped, Some [0x30d5; 0x30a1; 0x30e9; 0x30c3; 0x30c9]); (0x3333, 0x3333, Mapped, Some [0x30d5; 0x30a3; 0x30fc; 0x30c8]);
   (0x3334, 0x3334, Mapped, Some [0x30d6; 0x30c3; 0x30b7; 0x30a7; 0x30eb]); (0x3335, 0x3335, Mapped, Some [0x30d5; 0x30e9; 0x30f3]); (0x3336, 0x3336, Mapped, Some [0x30d8; 0x30af; 0x30bf; 0x30fc; 0x30eb]);
   (0x3337, 0x3337, Mapped, Some [0x30da; 0x30bd]); (0x3338, 0x3338, Mapped, Some [0x30da; 0x30cb; 0x30d2]); (0x3339, 0x3339, Mapped, Some [0x30d8; 0x30eb; 0x30c4]);
   (0x333a, 0x333a, Mapped, Some [0x30da; 0x30f3; 0x30b9]); (0x333b, 0x333b, Mapped, Some [0x30da; 0x30fc; 0x30b8]); (0x333c, 0x333c, Mapped, Some [0x30d9; 0x30fc; 0x30bf]);
   (0x333d, 0x333d, Mapped, Some [0x30dd; 0x30a4; 0x30f3; 0x30c8]); (0x333e, 0x333e, Mapped, Some [0x30dc; 0x30eb; 0x30c8]); (0x333f, 0x333f, Mapped, Some [0x30db; 0x30f3]);
   (0x3340, 0x3340, Mapped, Some [0x30dd; 0x30f3; 0x30c9]); (0x3341, 0x3341, Mapped, Some [0x30db; 0x30fc; 0x30eb]); (0x3342, 0x3342, Mapped, Some [0x30db; 0x30fc; 0x30f3]);
   (0x3343, 0x3343, Mapped, Some [0x30de; 0x30a4; 0x30af; 0x30ed]); (0x3344, 0x3344, Mapped, Some [0x30de; 0x30a4; 0x30eb]); (0x3345, 0x3345, Mapped, Some [0x30de; 0x30c3; 0x30cf]);
   (0x3346, 0x3346, Mapped, Some [0x30de; 0x30eb; 0x30af]); (0x3347, 0x3347, Mapped, Some [0x30de; 0x30f3; 0x30b7; 0x30e7; 0x30f3]); (0x3348, 0x3348, Mapped, Some [0x30df; 0x30af; 0x30ed; 0x30f3]);
   (0x3349, 0x3349, Mapped, Some [0x30df; 0x30ea]); (0x334a, 0x334a, Mapped, Some [0x30df; 0x30ea; 0x30d0; 0x30fc; 0x30eb]); (0x334b, 0x334b, Mapped, Some [0x30e1; 0x30ac]);
   (0x334c, 0x334c, Mapped, Some [0x30e1; 0x30ac; 0x30c8; 0x30f3]); (0x334d, 0x334d, Mapped, Some [0x30e1; 0x30fc; 0x30c8; 0x30eb]); (0x334e, 0x334e, Mapped, Some [0x30e4; 0x30fc; 0x30c9]);
   (0x334f, 0x334f, Mapped, Some [0x30e4; 0x30fc; 0x30eb]); (0x3350, 0x3350, Mapped, Some [0x30e6; 0x30a2; 0x30f3]); (0x3351, 0x3351, Mapped, Some [0x30ea; 0x30c3; 0x30c8; 0x30eb]);
   (0x3352, 0x3352, Mapped, Some [0x30ea; 0x30e9]); (0x3353, 0x3353, Mapped, Some [0x30eb; 0x30d4; 0x30fc]); (0x3354, 0x3354, Mapped, Some [0x30eb; 0x30fc; 0x30d6; 0x30eb]);
   (0x3355, 0x3355, Mapped, Some [0x30ec; 0x30e0]); (0x3356, 0x3356, Mapped, Some [0x30ec; 0x30f3; 0x30c8; 0x30b2; 0x30f3]); (0x3357, 0x3357, Mapped, Some [0x30ef; 0x30c3; 0x30c8]);
   (0x3358, 0x3358, Mapped, Some [0x30; 0x70b9]); (0x3359, 0x3359, Mapped, Some [0x31; 0x70b9]); (0x335a, 0x335a, Mapped, Some [0x32; 0x70b9]);
   (0x335b, 0x335b, Mapped, Some [0x33; 0x70b9]); (0x335c, 0x335c, Mapped, Some [0x34; 0x70b9]); (0x335d, 0x335d, Mapped, Some [0x35; 0x70b9]);
   (0x335e, 0x335e, Mapped, Some [0x36; 0x70b9]); (0x335f, 0x335f, Mapped, Some [0x37; 0x70b9]); (0x3360, 0x3360, Mapped, Some [0x38; 0x70b9]);
   (0x3361, 0x3361, Mapped, Some [0x39; 0x70b9]); (0x3362, 0x3362, Mapped, Some [0x31; 0x30; 0x70b9]); (0x3363, 0x3363, Mapped, Some [0x31; 0x31; 0x70b9]);
   (0x3364, 0x3364, Mapped, Some [0x31; 0x32; 0x70b9]); (0x3365, 0x3365, Mapped, Some [0x31; 0x33; 0x70b9]); (0x3366, 0x3366, Mapped, Some [0x31; 0x34; 0x70b9]);
   (0x3367, 0x3367, Mapped, Some [0x31; 0x35; 0x70b9]); (0x3368, 0x3368, Mapped, Some [0x31; 0x36; 0x70b9]); (0x3369, 0x3369, Mapped, Some [0x31; 0x37; 0x70b9]);
   (0x336a, 0x336a, Mapped, Some [0x31; 0x38; 0x70b9]); (0x336b, 0x336b, Mapped, Some [0x31; 0x39; 0x70b9]); (0x336c, 0x336c, Mapped, Some [0x32; 0x30; 0x70b9]);
   (0x336d, 0x336d, Mapped, Some [0x32; 0x31; 0x70b9]); (0x336e, 0x336e, Mapped, Some [0x32; 0x32; 0x70b9]); (0x336f, 0x336f, Mapped, Some [0x32; 0x33; 0x70b9]);
   (0x3370, 0x3370, Mapped, Some [0x32; 0x34; 0x70b9]); (0x3371, 0x3371, Mapped, Some [0x68; 0x70; 0x61]); (0x3372, 0x3372, Mapped, Some [0x64; 0x61]);
   (0x3373, 0x3373, Mapped, Some [0x61; 0x75]); (0x3374, 0x3374, Mapped, Some [0x62; 0x61; 0x72]); (0x3375, 0x3375, Mapped, Some [0x6f; 0x76]);
   (0x3376, 0x3376, Mapped, Some [0x70; 0x63]); (0x3377, 0x3377, Mapped, Some [0x64; 0x6d]); (0x3378, 0x3378, Mapped, Some [0x64; 0x6d; 0x32]);
   (0x3379, 0x3379, Mapped, Some [0x64; 0x6d; 0x33]); (0x337a, 0x337a, Mapped, Some [0x69; 0x75]); (0x337b, 0x337b, Mapped, Some [0x5e73; 0x6210]);
   (0x337c, 0x337c, Mapped, Some [0x662d; 0x548c]); (0x337d, 0x337d, Mapped, Some [0x5927; 0x6b63]); (0x337e, 0x337e, Mapped, Some [0x660e; 0x6cbb]);
   (0x337f, 0x337f, Mapped, Some [0x682a; 0x5f0f; 0x4f1a; 0x793e]); (0x3380, 0x3380, Mapped, Some [0x70; 0x61]); (0x3381, 0x3381, Mapped, Some [0x6e; 0x61]);
   (0x3382, 0x3382, Mapped, Some [0x3bc; 0x61]); (0x3383, 0x3383, Mapped, Some [0x6d; 0x61]); (0x3384, 0x3384, Mapped, Some [0x6b; 0x61]);
   (0x3385, 0x3385, Mapped, Some [0x6b; 0x62]); (0x3386, 0x3386, Mapped, Some [0x6d; 0x62]); (0x3387, 0x3387, Mapped, Some [0x67; 0x62]);
   (0x3388, 0x3388, Mapped, Some [0x63; 0x61; 0x6c]); (0x3389, 0x3389, Mapped, Some [0x6b; 0x63; 0x61; 0x6c]); (0x338a, 0x338a, Mapped, Some [0x70; 0x66]);
   (0x338b, 0x338b, Mapped, Some [0x6e; 0x66]); (0x338c, 0x338c, Mapped, Some [0x3bc; 0x66]); (0x338d, 0x338d, Mapped, Some [0x3bc; 0x67]);
   (0x338e, 0x338e, Mapped, Some [0x6d; 0x67]); (0x338f, 0x338f, Mapped, Some [0x6b; 0x67]); (0x3390, 0x3390, Mapped, Some [0x68; 0x7a]);
   (0x3391, 0x3391, Mapped, Some [0x6b; 0x68; 0x7a]); (0x3392, 0x3392, Mapped, Some [0x6d; 0x68; 0x7a]); (0x3393, 0x3393, Mapped, Some [0x67; 0x68; 0x7a]);
   (0x3394, 0x3394, Mapped, Some [0x74; 0x68; 0x7a]); (0x3395, 0x3395, Mapped, Some [0x3bc; 0x6c]); (0x3396, 0x3396, Mapped, Some [0x6d; 0x6c]);
   (0x3397, 0x3397, Mapped, Some [0x64; 0x6c]); (0x3398, 0x3398, Mapped, Some [0x6b; 0x6c]); (0x3399, 0x3399, Mapped, Some [0x66; 0x6d]);
   (0x339a, 0x339a, Mapped, Some [0x6e; 0x6d]); (0x339b, 0x339b, Mapped, Some [0x3bc; 0x6d]); (0x339c, 0x339c, Mapped, Some [0x6d; 0x6d]);
   (0x339d, 0x339d, Mapped, Some [0x63; 0x6d]); (0x339e, 0x339e, Mapped, Some [0x6b; 0x6d]); (0x339f, 0x339f, Mapped, Some [0x6d; 0x6d; 0x32]);
   (0x33a0, 0x33a0, Mapped, Some [0x63; 0x6d; 0x32]); (0x33a1, 0x33a1, Mapped, Some [0x6d; 0x32]); (0x33a2, 0x33a2, Mapped, Some [0x6b; 0x6d; 0x32]);
   (0x33a3, 0x33a3, Mapped, Some [0x6d; 0x6d; 0x33]); (0x33a4, 0x33a4, Mapped, Some [0x63; 0x6d; 0x33]); (0x33a5, 0x33a5, Mapped, Some [0x6d; 0x33]);
   (0x33a6, 0x33a6, Mapped, Some [0x6b; 0x6d; 0x33]); (0x33a7, 0x33a7, Mapped, Some [0x6d; 0x2215; 0x73]); (0x33a8, 0x33a8, Mapped, Some [0x6d; 0x2215; 0x73; 0x32]);
   (0x33a9, 0x33a9, Mapped, Some [0x70; 0x61]); (0x33aa, 0x33aa, Mapped, Some [0x6b; 0x70; 0x61]); (0x33ab, 0x33ab, Mapped, Some [0x6d; 0x70; 0x61]);
   (0x33ac, 0x33ac, Mapped, Some [0x67; 0x70; 0x61]); (0x33ad, 0x33ad, Mapped, Some [0x72; 0x61; 0x64]); (0x33ae, 0x33ae, Mapped, Some [0x72; 0x61; 0x64; 0x2215; 0x73]);
   (0x33af, 0x33af, Mapped, Some [0x72; 0x61; 0x64; 0x2215; 0x73; 0x32]); (0x33b0, 0x33b0, Mapped, Some [0x70; 0x73]); (0x33b1, 0x33b1, Mapped, Some [0x6e; 0x73]);
   (0x33b2, 0x33b2, Mapped, Some [0x3bc; 0x73]); (0x33b3, 0x33b3, Mapped, Some [0x6d; 0x73]); (0x33b4, 0x33b4, Mapped, Some [0x70; 0x76]);
   (0x33b5, 0x33b5, Mapped, Some [0x6e; 0x76]); (0x33b6, 0x33b6, Mapped, Some [0x3bc; 0x76]); (0x33b7, 0x33b7, Mapped, Some [0x6d; 0x76]);
   (0x33b8, 0x33b8, Mapped, Some [0x6b; 0x76]); (0x33b9, 0x33b9, Mapped, Some [0x6d; 0x76]); (0x33ba, 0x33ba, Mapped, Some [0x70; 0x77]);
   (0x33bb, 0x33bb, Mapped, Some [0x6e; 0x77]); (0x33bc, 0x33bc, Mapped, Some [0x3bc; 0x77]); (0x33bd, 0x33bd, Mapped, Some [0x6d; 0x77]);
   (0x33be, 0x33be, Mapped, Some [0x6b; 0x77]); (0x33bf, 0x33bf, Mapped, Some [0x6d; 0x77]); (0x33c0, 0x33c0, Mapped, Some [0x6b; 0x3c9]);
   (0x33c1, 0x33c1, Mapped, Some [0x6d; 0x3c9]); (0x33c2, 0x33c2, Disallowed, None); (0x33c3, 0x33c3, Mapped, Some [0x62; 0x71]);
   (0x33c4, 0x33c4, Mapped, Some [0x63; 0x63]); (0x33c5, 0x33c5, Mapped, Some [0x63; 0x64]); (0x33c6, 0x33c6, Mapped, Some [0x63; 0x2215; 0x6b; 0x67]);
   (0x33c7, 0x33c7, Disallowed, None); (0x33c8, 0x33c8, Mapped, Some [0x64; 0x62]); (0x33c9, 0x33c9, Mapped, Some [0x67; 0x79]);
   (0x33ca, 0x33ca, Mapped, Some [0x68; 0x61]); (0x33cb, 0x33cb, Mapped, Some [0x68; 0x70]); (0x33cc, 0x33cc, Mapped, Some [0x69; 0x6e]);
   (0x33cd, 0x33cd, Mapped, Some [0x6b; 0x6b]); (0x33ce, 0x33ce, Mapped, Some [0x6b; 0x6d]); (0x33cf, 0x33cf, Mapped, Some [0x6b; 0x74]);
   (0x33d0, 0x33d0, Mapped, Some [0x6c; 0x6d]); (0x33d1, 0x33d1, Mapped, Some [0x6c; 0x6e]); (0x33d2, 0x33d2, Mapped, Some [0x6c; 0x6f; 0x67]);
   (0x33d3, 0x33d3, Mapped, Some [0x6c; 0x78]); (0x33d4, 0x33d4, Mapped, Some [0x6d; 0x62]); (0x33d5, 0x33d5, Mapped, Some [0x6d; 0x69; 0x6c]);
   (0x33d6, 0x33d6, Mapped, Some [0x6d; 0x6f; 0x6c]); (0x33d7, 0x33d7, Mapped, Some [0x70; 0x68]); (0x33d8, 0x33d8, Disallowed, None);
   (0x33d9, 0x33d9, Mapped, Some [0x70; 0x70; 0x6d]); (0x33da, 0x33da, Mapped, Some [0x70; 0x72]); (0x33db, 0x33db, Mapped, Some [0x73; 0x72]);
   (0x33dc, 0x33dc, Mapped, Some [0x73; 0x76]); (0x33dd, 0x33dd, Mapped, Some [0x77; 0x62]); (0x33de, 0x33de, Mapped, Some [0x76; 0x2215; 0x6d]);
   (0x33df, 0x33df, Mapped, Some [0x61; 0x2215; 0x6d]); (0x33e0, 0x33e0, Mapped, Some [0x31; 0x65e5]); (0x33e1, 0x33e1, Mapped, Some [0x32; 0x65e5]);
   (0x33e2, 0x33e2, Mapped, Some [0x33; 0x65e5]); (0x33e3, 0x33e3, Mapped, Some [0x34; 0x65e5]); (0x33e4, 0x33e4, Mapped, Some [0x35; 0x65e5]);
   (0x33e5, 0x33e5, Mapped, Some [0x36; 0x65e5]); (0x33e6, 0x33e6, Mapped, Some [0x37; 0x65e5]); (0x33e7, 0x33e7, Mapped, Some [0x38; 0x65e5]);
   (0x33e8, 0x33e8, Mapped, Some [0x39; 0x65e5]); (0x33e9, 0x33e9, Mapped, Some [0x31; 0x30; 0x65e5]); (0x33ea, 0x33ea, Mapped, Some [0x31; 0x31; 0x65e5]);
   (0x33eb, 0x33eb, Mapped, Some [0x31; 0x32; 0x65e5]); (0x33ec, 0x33ec, Mapped, Some [0x31; 0x33; 0x65e5]); (0x33ed, 0x33ed, Mapped, Some [0x31; 0x34; 0x65e5]);
   (0x33ee, 0x33ee, Mapped, Some [0x31; 0x35; 0x65e5]); (0x33ef, 0x33ef, Mapped, Some [0x31; 0x36; 0x65e5]); (0x33f0, 0x33f0, Mapped, Some [0x31; 0x37; 0x65e5]);
   (0x33f1, 0x33f1, Mapped, Some [0x31; 0x38; 0x65e5]); (0x33f2, 0x33f2, Mapped, Some [0x31; 0x39; 0x65e5]); (0x33f3, 0x33f3, Mapped, Some [0x32; 0x30; 0x65e5]);
   (0x33f4, 0x33f4, Mapped, Some [0x32; 0x31; 0x65e5]); (0x33f5, 0x33f5, Mapped, Some [0x32; 0x32; 0x65e5]); (0x33f6, 0x33f6, Mapped, Some [0x32; 0x33; 0x65e5]);
   (0x33f7, 0x33f7, Mapped, Some [0x32; 0x34; 0x65e5]); (0x33f8, 0x33f8, Mapped, Some [0x32; 0x35; 0x65e5]); (0x33f9, 0x33f9, Mapped, Some [0x32; 0x36; 0x65e5]);
   (0x33fa, 0x33fa, Mapped, Some [0x32; 0x37; 0x65e5]); (0x33fb, 0x33fb, Mapped, Some [0x32; 0x38; 0x65e5]); (0x33fc, 0x33fc, Mapped, Some [0x32; 0x39; 0x65e5]);
   (0x33fd, 0x33fd, Mapped, Some [0x33; 0x30; 0x65e5]); (0x33fe, 0x33fe, Mapped, Some [0x33; 0x31; 0x65e5]); (0x33ff, 0x33ff, Mapped, Some [0x67; 0x61; 0x6c]);
   (0x3400, 0x4db5, Valid, None); (0x4db6, 0x4dbf, Valid, None); (0x4dc0, 0x4dff, Valid, Some []);
   (0x4e00, 0x9fa5, Valid, None); (0x9fa6, 0x9fbb, Valid, None); (0x9fbc, 0x9fc3, Valid, None);
   (0x9fc4, 0x9fcb, Valid, None); (0x9fcc, 0x9fcc, Valid, None); (0x9fcd, 0x9fd5, Valid, None);
   (0x9fd6, 0x9fea, Valid, None); (0x9feb, 0x9fef, Valid, None); (0x9ff0, 0x9ffc, Valid, None);
   (0x9ffd, 0x9fff, Disallowed, None); (0xa000, 0xa48c, Valid, None); (0xa48d, 0xa48f, Disallowed, None);
   (0xa490, 0xa4a1, Valid, Some []); (0xa4a2, 0xa4a3, Valid, Some []); (0xa4a4, 0xa4b3, Valid, Some []);
   (0xa4b4, 0xa4b4, Valid, Some []); (0xa4b5, 0xa4c0, Valid, Some []); (0xa4c1, 0xa4c1, Valid, Some []);
   (0xa4c2, 0xa4c4, Valid, Some []); (0xa4c5, 0xa4c5, Valid, Some []); (0xa4c6, 0xa4c6, Valid, Some []);
   (0xa4c7, 0xa4cf, Disallowed, None); (0xa4d0, 0xa4fd, Valid, None); (0xa4fe, 0xa4ff, Valid, Some []);
   (0xa500, 0xa60c, Valid, None); (0xa60d, 0xa60f, Valid, Some []); (0xa610, 0xa62b, Valid, None);
   (0xa62c, 0xa63f, Disallowed, None); (0xa640, 0xa640, Mapped, Some [0xa641]); (0xa641, 0xa641, Valid, None);
   (0xa642, 0xa642, Mapped, Some [0xa643]); (0xa643, 0xa643, Valid, None); (0xa644, 0xa644, Mapped, Some [0xa645]);
   (0xa645, 0xa645, Valid, None); (0xa646, 0xa646, Mapped, Some [0xa647]); (0xa647, 0xa647, Valid, None);
   (0xa648, 0xa648, Mapped, Some [0xa649]); (0xa649, 0xa649, Valid, None); (0xa64a, 0xa64a, Mapped, Some [0xa64b]);
   (0xa64b, 0xa64b, Valid, None); (0xa64c, 0xa64c, Mapped, Some [0xa64d]); (0xa64d, 0xa64d, Valid, None);
   (0xa64e, 0xa64e, Mapped, Some [0xa64f]); (0xa64f, 0xa64f, Valid, None); (0xa650, 0xa650, Mapped, Some [0xa651]);
   (0xa651, 0xa651, Valid, None); (0xa652, 0xa652, Mapped, Some [0xa653]); (0xa653, 0xa653, Valid, None);
   (0xa654, 0xa654, Mapped, Some [0xa655]); (0xa655, 0xa655, Valid, None); (0xa656, 0xa656, Mapped, Some [0xa657]);
   (0xa657, 0xa657, Valid, None); (0xa658, 0xa658, Mapped, Some [0xa659]); (0xa659, 0xa659, Valid, None);
   (0xa65a, 0xa65a, Mapped, Some [0xa65b]); (0xa65b, 0xa65b, Valid, None); (0xa65c, 0xa65c, Mapped, Some [0xa65d]);
   (0xa65d, 0xa65d, Valid, None); (0xa65e, 0xa65e, Mapped, Some [0xa65f]); (0xa65f, 0xa65f, Valid, None);
   (0xa660, 0xa660, Mapped, Some [0xa661]); (0xa661, 0xa661, Valid, None); (0xa662, 0xa662, Mapped, Some [0xa663]);
   (0xa663, 0xa663, Valid, None); (0xa664, 0xa664, Mapped, Some [0xa665]); (0xa665, 0xa665, Valid, None);
   (0xa666, 0xa666, Mapped, Some [0xa667]); (0xa667, 0xa667, Valid, None); (0xa668, 0xa668, Mapped, Some [0xa669]);
   (0xa669, 0xa669, Valid, None); (0xa66a, 0xa66a, Mapped, Some [0xa66b]); (0xa66b, 0xa66b, Valid, None);
   (0xa66c, 0xa66c, Mapped, Some [0xa66d]); (0xa66d, 0xa66f, Valid, None); (0xa670, 0xa673, Valid, Some []);
   (0xa674, 0xa67b, Valid, None); (0xa67c, 0xa67d, Valid, None); (0xa67e, 0xa67e, Valid, Some []);
   (0xa67f, 0xa67f, Valid, None); (0xa680, 0xa680, Mapped, Some [0xa681]); (0xa681, 0xa681, Valid, None);
   (0xa682, 0xa682, Mapped, Some [0xa683]); (0xa683, 0xa683, Valid, None); (0xa684, 0xa684, Mapped, Some [0xa685]);
   (0xa685, 0xa685, Valid, None); (0xa686, 0xa686, Mapped, Some [0xa687]); (0xa687, 0xa687, Valid, None);
   (0xa688, 0xa688, Mapped, Some [0xa689]); (0xa689, 0xa689, Valid, None); (0xa68a, 0xa68a, Mapped, Some [0xa68b]);
   (0xa68b, 0xa68b, Valid, None); (0xa68c, 0xa68c, Mapped, Some [0xa68d]); (0xa68d, 0xa68d, Valid, None);
   (0xa68e, 0xa68e, Mapped, Some [0xa68f]); (0xa68f, 0xa68f, Valid, None); (0xa690, 0xa690, Mapped, Some [0xa691]);
   (0xa691, 0xa691, Valid, None); (0xa692, 0xa692, Mapped, Some [0xa693]); (0xa693, 0xa693, Valid, None);
   (0xa694, 0xa694, Mapped, Some [0xa695]); (0xa695, 0xa695, Valid, None); (0xa696, 0xa696, Mapped, Some [0xa697]);
   (0xa697, 0xa697, Valid, None); (0xa698, 0xa698, Mapped, Some [0xa699]); (0xa699, 0xa699, Valid, None);
   (0xa69a, 0xa69a, Mapped, Some [0xa69b]); (0xa69b, 0xa69b, Valid, None); (0xa69c, 0xa69c, Mapped, Some [0x44a]);
   (0xa69d, 0xa69d, Mapped, Some [0x44c]); (0xa69e, 0xa69e, Valid, None); (0xa69f, 0xa69f, Valid, None);
   (0xa6a0, 0xa6e5, Valid, None); (0xa6e6, 0xa6ef, Valid, Some []); (0xa6f0, 0xa6f1, Valid, None);
   (0xa6f2, 0xa6f7, Valid, Some []); (0xa6f8, 0xa6ff, Disallowed, None); (0xa700, 0xa716, Valid, Some []);
   (0xa717, 0xa71a, Valid, None); (0xa71b, 0xa71f, Valid, None); (0xa720, 0xa721, Valid, Some []);
   (0xa722, 0xa722, Mapped, Some [0xa723]); (0xa723, 0xa723, Valid, None); (0xa724, 0xa724, Mapped, Some [0xa725]);
   (0xa725, 0xa725, Valid, None); (0xa726, 0xa726, Mapped, Some [0xa727]); (0xa727, 0xa727, Valid, None);
   (0xa728, 0xa728, Mapped, Some [0xa729]); (0xa729, 0xa729, Valid, None); (0xa72a, 0xa72a, Mapped, Some [0xa72b]);
   (0xa72b, 0xa72b, Valid, None); (0xa72c, 0xa72c, Mapped, Some [0xa72d]); (0xa72d, 0xa72d, Valid, None);
   (0xa72e, 0xa72e, Mapped, Some [0xa72f]); (0xa72f, 0xa731, Valid, None); (0xa732, 0xa732, Mapped, Some [0xa733]);
   (0xa733, 0xa733, Valid, None); (0xa734, 0xa734, Mapped, Some [0xa735]); (0xa735, 0xa735, Valid, None);
   (0xa736, 0xa736, Mapped, Some [0xa737]); (0xa737, 0xa737, Valid, None); (0xa738, 0xa738, Mapped, Some [0xa739]);
   (0xa739, 0xa739, Valid, None); (0xa73a, 0xa73a, Mapped, Some [0xa73b]); (0xa73b, 0xa73b, Valid, None);
   (0xa73c, 0xa73c, Mapped, Some [0xa73d]); (0xa73d, 0xa73d, Valid, None); (0xa73e, 0xa73e, Mapped, Some [0xa73f]);
   (0xa73f, 0xa73f, Valid, None); (0xa740, 0xa740, Mapped, Some [0xa741]); (0xa741, 0xa741, Valid, None);
   (0xa742, 0xa742, Mapped, Some [0xa743]); (0xa743, 0xa743, Valid, None); (0xa744, 0xa744, Mapped, Some [0xa745]);
   (0xa745, 0xa745, Valid, None); (0xa746, 0xa746, Mapped, Some [0xa747]); (0xa747, 0xa747, Valid, None);
   (0xa748, 0xa748, Mapped, Some [0xa749]); (0xa749, 0xa749, Valid, None); (0xa74a, 0xa74a, Mapped, Some [0xa74b]);
   (0xa74b, 0xa74b, Valid, None); (0xa74c, 0xa74c, Mapped, Some [0xa74d]); (0xa74d, 0xa74d, Valid, None);
   (0xa74e, 0xa74e, Mapped, Some [0xa74f]); (0xa74f, 0xa74f, Valid, None); (0xa750, 0xa750, Mapped, Some [0xa751]);
   (0xa751, 0xa751, Valid, None); (0xa752, 0xa752, Mapped, Some [0xa753]); (0xa753, 0xa753, Valid, None);
   (0xa754, 0xa754, Mapped, Some [0xa755]); (0xa755, 0xa755, Valid, None); (0xa756, 0xa756, Mapped, Some [0xa757]);
   (0xa757, 0xa757, Valid, None); (0xa758, 0xa758, Mapped, Some [0xa759]); (0xa759, 0xa759, Valid, None);
   (0xa75a, 0xa75a, Mapped, Some [0xa75b]); (0xa75b, 0xa75b, Valid, None); (0xa75c, 0xa75c, Mapped, Some [0xa75d]);
   (0xa75d, 0xa75d, Valid, None); (0xa75e, 0xa75e, Mapped, Some [0xa75f]); (0xa75f, 0xa75f, Valid, None);
   (0xa760, 0xa760, Mapped, Some [0xa761]); (0xa761, 0xa761, Valid, None); (0xa762, 0xa762, Mapped, Some [0xa763]);
   (0xa763, 0xa763, Valid, None); (0xa764, 0xa764, Mapped, Some [0xa765]); (0xa765, 0xa765, Valid, None);
   (0xa766, 0xa766, Mapped, Some [0xa767]); (0xa767, 0xa767, Valid, None); (0xa768, 0xa768, Mapped, Some [0xa769]);
   (0xa769, 0xa769, Valid, None); (0xa76a, 0xa76a, Mapped, Some [0xa76b]); (0xa76b, 0xa76b, Valid, None);
   (0xa76c, 0xa76c, Mapped, Some [0xa76d]); (0xa76d, 0xa76d, Valid, None); (0xa76e, 0xa76e, Mapped, Some [0xa76f]);
   (0xa76f, 0xa76f, Valid, None); (0xa770, 0xa770, Mapped, Some [0xa76f]); (0xa771, 0xa778, Valid, None);
   (0xa779, 0xa779, Mapped, Some [0xa77a]); (0xa77a, 0xa77a, Valid, None); (0xa77b, 0xa77b, Mapped, Some [0xa77c]);
   (0xa77c, 0xa77c, Valid, None); (0xa77d, 0xa77d, Mapped, Some [0x1d79]); (0xa77e, 0xa77e, Mapped, Some [0xa77f]);
   (0xa77f, 0xa77f, Valid, None); (0xa780, 0xa780, Mapped, Some [0xa781]); (0xa781, 0xa781, Valid, None);
   (0xa782, 0xa782, Mapped, Some [0xa783]); (0xa783, 0xa783, Valid, None); (0xa784, 0xa784, Mapped, Some [0xa785]);
   (0xa785, 0xa785, Valid, None); (0xa786, 0xa786, Mapped, Some [0xa787]); (0xa787, 0xa788, Valid, None);
   (0xa789, 0xa78a, Valid, Some []); (0xa78b, 0xa78b, Mapped, Some [0xa78c]); (0xa78c, 0xa78c, Valid, None);
   (0xa78d, 0xa78d, Mapped, Some [0x265]); (0xa78e, 0xa78e, Valid, None); (0xa78f, 0xa78f, Valid, None);
   (0xa790, 0xa790, Mapped, Some [0xa791]); (0xa791, 0xa791, Valid, None); (0xa792, 0xa792, Mapped, Some [0xa793]);
   (0xa793, 0xa793, Valid, None); (0xa794, 0xa795, Valid, None); (0xa796, 0xa796, Mapped, Some [0xa797]);
   (0xa797, 0xa797, Valid, None); (0xa798, 0xa798, Mapped, Some [0xa799]); (0xa799, 0xa799, Valid, None);
   (0xa79a, 0xa79a, Mapped, Some [0xa79b]); (0xa79b, 0xa79b, Valid, None); (0xa79c, 0xa79c, Mapped, Some [0xa79d]);
   (0xa79d, 0xa79d, Valid, None); (0xa79e, 0xa79e, Mapped, Some [0xa79f]); (0xa79f, 0xa79f, Valid, None);
   (0xa7a0, 0xa7a0, Mapped, Some [0xa7a1]); (0xa7a1, 0xa7a1, Valid, None); (0xa7a2, 0xa7a2, Mapped, Some [0xa7a3]);
   (0xa7a3, 0xa7a3, Valid, None); (0xa7a4, 0xa7a4, Mapped, Some [0xa7a5]); (0xa7a5, 0xa7a5, Valid, None);
   (0xa7a6, 0xa7a6, Mapped, Some [0xa7a7]); (0xa7a7, 0xa7a7, Valid, None); (0xa7a8, 0xa7a8, Mapped, Some [0xa7a9]);
   (0xa7a9, 0xa7a9, Valid, None); (0xa7aa, 0xa7aa, Mapped, Some [0x266]); (0xa7ab, 0xa7ab, Mapped, Some [0x25c]);
   (0xa7ac, 0xa7ac, Mapped, Some [0x261]); (0xa7ad, 0xa7ad, Mapped, Some [0x26c]); (0xa7ae, 0xa7ae, Mapped, Some [0x26a]);
   (0xa7af, 0xa7af, Valid, None); (0xa7b0, 0xa7b0, Mapped, Some [0x29e]); (0xa7b1, 0xa7b1, Mapped, Some [0x287]);
   (0xa7b2, 0xa7b2, Mapped, Some [0x29d]); (0xa7b3, 0xa7b3, Mapped, Some [0xab53]); (0xa7b4, 0xa7b4, Mapped, Some [0xa7b5]);
   (0xa7b5, 0xa7b5, Valid, None); (0xa7b6, 0xa7b6, Mapped, Some [0xa7b7]); (0xa7b7, 0xa7b7, Valid, None);
   (0xa7b8, 0xa7b8, Mapped, Some [0xa7b9]); (0xa7b9, 0xa7b9, Valid, None); (0xa7ba, 0xa7ba, Mapped, Some [0xa7bb]);
   (0xa7bb, 0xa7bb, Valid, None); (0xa7bc, 0xa7bc, Mapped, Some [0xa7bd]); (0xa7bd, 0xa7bd, Valid, None);
   (0xa7be, 0xa7be, Mapped, Some [0xa7bf]); (0xa7bf, 0xa7bf, Valid, None); (0xa7c0, 0xa7c1, Disallowed, None);
   (0xa7c2, 0xa7c2, Mapped, Some [0xa7c3]); (0xa7c3, 0xa7c3, Valid, None); (0xa7c4, 0xa7c4, Mapped, Some [0xa794]);
   (0xa7c5, 0xa7c5, Mapped, Some [0x282]); (0xa7c6, 0xa7c6, Mapped, Some [0x1d8e]); (0xa7c7, 0xa7c7, Mapped, Some [0xa7c8]);
   (0xa7c8, 0xa7c8, Valid, None); (0xa7c9, 0xa7c9, Mapped, Some [0xa7ca]); (0xa7ca, 0xa7ca, Valid, None);
   (0xa7cb, 0xa7f4, Disallowed, None); (0xa7f5, 0xa7f5, Mapped, Some [0xa7f6]); (0xa7f6, 0xa7f6, Valid, None);
   (0xa7f7, 0xa7f7, Valid, None); (0xa7f8, 0xa7f8, Mapped, Some [0x127]); (0xa7f9, 0xa7f9, Mapped, Some [0x153]);
   (0xa7fa, 0xa7fa, Valid, None); (0xa7fb, 0xa7ff, Valid, None); (0xa800, 0xa827, Valid, None);
   (0xa828, 0xa82b, Valid, Some []); (0xa82c, 0xa82c, Valid, None); (0xa82d, 0xa82f, Disallowed, None);
   (0xa830, 0xa839, Valid, Some []); (0xa83a, 0xa83f, Disallowed, None); (0xa840, 0xa873, Valid, None);
   (0xa874, 0xa877, Valid, Some []); (0xa878, 0xa87f, Disallowed, None); (0xa880, 0xa8c4, Valid, None);
   (0xa8c5, 0xa8c5, Valid, None); (0xa8c6, 0xa8cd, Disallowed, None); (0xa8ce, 0xa8cf, Valid, Some []);
   (0xa8d0, 0xa8d9, Valid, None); (0xa8da, 0xa8df, Disallowed, None); (0xa8e0, 0xa8f7, Valid, None);
   (0xa8f8, 0xa8fa, Valid, Some []); (0xa8fb, 0xa8fb, Valid, None); (0xa8fc, 0xa8fc, Valid, Some []);
   (0xa8fd, 0xa8fd, Valid, None); (0xa8fe, 0xa8ff, Valid, None); (0xa900, 0xa92d, Valid, None);
   (0xa92e, 0xa92f, Valid, Some []); (0xa930, 0xa953, Valid, None); (0xa954, 0xa95e, Disallowed, None);
   (0xa95f, 0xa95f, Valid, Some []); (0xa960, 0xa97c, Valid, Some []); (0xa97d, 0xa97f, Disallowed, None);
   (0xa980, 0xa9c0, Valid, None); (0xa9c1, 0xa9cd, Valid, Some []); (0xa9ce, 0xa9ce, Disallowed, None);
   (0xa9cf, 0xa9d9, Valid, None); (0xa9da, 0xa9dd, Disallowed, None); (0xa9de, 0xa9df, Valid, Some []);
   (0xa9e0, 0xa9fe, Valid, None); (0xa9ff, 0xa9ff, Disallowed, None); (0xaa00, 0xaa36, Valid, None);
   (0xaa37, 0xaa3f, Disallowed, None); (0xaa40, 0xaa4d, Valid, None); (0xaa4e, 0xaa4f, Disallowed, None);
   (0xaa50, 0xaa59, Valid, None); (0xaa5a, 0xaa5b, Disallowed, None); (0xaa5c, 0xaa5f, Valid, Some []);
   (0xaa60, 0xaa76, Valid, None); (0xaa77, 0xaa79, Valid, Some []); (0xaa7a, 0xaa7b, Valid, None);
   (0xaa7c, 0xaa7f, Valid, None); (0xaa80, 0xaac2, Valid, None); (0xaac3, 0xaada, Disallowed, None);
   (0xaadb, 0xaadd, Valid, None); (0xaade, 0xaadf, Valid, Some []); (0xaae0, 0xaaef, Valid, None);
   (0xaaf0, 0xaaf1, Valid, Some []); (0xaaf2, 0xaaf6, Valid, None); (0xaaf7, 0xab00, Disallowed, None);
   (0xab01, 0xab06, Valid, None); (0xab07, 0xab08, Disallowed, None); (0xab09, 0xab0e, Valid, None);
   (0xab0f, 0xab10, Disallowed, None); (0xab11, 0xab16, Valid, None); (0xab17, 0xab1f, Disallowed, None);
   (0xab20, 0xab26, Valid, None); (0xab27, 0xab27, Disallowed, None); (0xab28, 0xab2e, Valid, None);
   (0xab2f, 0xab2f, Disallowed, None); (0xab30, 0xab5a, Valid, None); (0xab5b, 0xab5b, Valid, Some []);
   (0xab5c, 0xab5c, Mapped, Some [0xa727]); (0xab5d, 0xab5d, Mapped, Some [0xab37]); (0xab5e, 0xab5e, Mapped, Some [0x26b]);
   (0xab5f, 0xab5f, Mapped, Some [0xab52]); (0xab60, 0xab63, Valid, None); (0xab64, 0xab65, Valid, None);
   (0xab66, 0xab67, Valid, None); (0xab68, 0xab68, Valid, None); (0xab69, 0xab69, Mapped, Some [0x28d]);
   (0xab6a, 0xab6b, Valid, Some []); (0xab6c, 0xab6f, Disallowed, None); (0xab70, 0xab70, Mapped, Some [0x13a0]);
   (0xab71, 0xab71, Mapped, Some [0x13a1]); (0xab72, 0xab72, Mapped, Some [0x13a2]); (0xab73, 0xab73, Mapped, Some [0x13a3]);
   (0xab74, 0xab74, Mapped, Some [0x13a4]); (0xab75, 0xab75, Mapped, Some [0x13a5]); (0xab76, 0xab76, Mapped, Some [0x13a6]);
   (0xab77, 0xab77, Mapped, Some [0x13a7]); (0xab78, 0xab78, Mapped, Some [0x13a8]); (0xab79, 0xab79, Mapped, Some [0x13a9]);
   (0xab7a, 0xab7a, Mapped, Some [0x13aa]); (0xab7b, 0xab7b, Mapped, Some [0x13ab]); (0xab7c, 0xab7c, Mapped, Some [0x13ac]);
   (0xab7d, 0xab7d, Mapped, Some [0x13ad]); (0xab7e, 0xab7e, Mapped, Some [0x13ae]); (0xab7f, 0xab7f, Mapped, Some [0x13af]);
   (0xab80, 0xab80, Mapped, Some [0x13b0]); (0xab81, 0xab81, Mapped, Some [0x13b1]); (0xab82, 0xab82, Mapped, Some [0x13b2]);
   (0xab83, 0xab83, Mapped, Some [0x13b3]); (0xab84, 0xab84, Mapped, Some [0x13b4]); (0xab85, 0xab85, Mapped, Some [0x13b5]);
   (0xab86, 0xab86, Mapped, Some [0x13b6]); (0xab87, 0xab87, Mapped, Some [0x13b7]); (0xab88, 0xab88, Mapped, Some [0x13b8]);
   (0xab89, 0xab89, Mapped, Some [0x13b9]); (0xab8a, 0xab8a, Mapped, Some [0x13ba]); (0xab8b, 0xab8b, Mapped, Some [0x13bb]);
   (0xab8c, 0xab8c, Mapped, Some [0x13bc]); (0xab8d, 0xab8d, Mapped, Some [0x13bd]); (0xab8e, 0xab8e, Mapped, Some [0x13be]);
   (0xab8f, 0xab8f, Mapped, Some [0x13bf]); (0xab90, 0xab90, Mapped, Some [0x13c0]); (0xab91, 0xab91, Mapped, Some [0x13c1]);
   (0xab92, 0xab92, Mapped, Some [0x13c2]); (0xab93, 0xab93, Mapped, Some [0x13c3]); (0xab94, 0xab94, Mapped, Some [0x13c4]);
   (0xab95, 0xab95, Mapped, Some [0x13c5]); (0xab96, 0xab96, Mapped, Some [0x13c6]); (0xab97, 0xab97, Mapped, Some [0x13c7]);
   (0xab98, 0xab98, Mapped, Some [0x13c8]); (0xab99, 0xab99, Mapped, Some [0x13c9]); (0xab9a, 0xab9a, Mapped, Some [0x13ca]);
   (0xab9b, 0xab9b, Mapped, Some [0x13cb]); (0xab9c, 0xab9c, Mapped, Some [0x13cc]); (0xab9d, 0xab9d, Mapped, Some [0x13cd]);
   (0xab9e, 0xab9e, Mapped, Some [0x13ce]); (0xab9f, 0xab9f, Mapped, Some [0x13cf]); (0xaba0, 0xaba0, Mapped, Some [0x13d0]);
   (0xaba1, 0xaba1, Mapped, Some [0x13d1]); (0xaba2, 0xaba2, Mapped, Some [0x13d2]); (0xaba3, 0xaba3, Mapped, Some [0x13d3]);
   (0xaba4, 0xaba4, Mapped, Some [0x13d4]); (0xaba5, 0xaba5, Mapped, Some [0x13d5]); (0xaba6, 0xaba6, Mapped, Some [0x13d6]);
   (0xaba7, 0xaba7, Mapped, Some [0x13d7]); (0xaba8, 0xaba8, Mapped, Some [0x13d8]); (0xaba9, 0xaba9, Mapped, Some [0x13d9]);
   (0xabaa, 0xabaa, Mapped, Some [0x13da]); (0xabab, 0xabab, Mapped, Some [0x13db]); (0xabac, 0xabac, Mapped, Some [0x13dc]);
   (0xabad, 0xabad, Mapped, Some [0x13dd]); (0xabae, 0xabae, Mapped, Some [0x13de]); (0xabaf, 0xabaf, Mapped, Some [0x13df]);
   (0xabb0, 0xabb0, Mapped, Some [0x13e0]); (0xabb1, 0xabb1, Mapped, Some [0x13e1]); (0xabb2, 0xabb2, Mapped, Some [0x13e2]);
   (0xabb3, 0xabb3, Mapped, Some [0x13e3]); (0xabb4, 0xabb4, Mapped, Some [0x13e4]); (0xabb5, 0xabb5, Mapped, Some [0x13e5]);
   (0xabb6, 0xabb6, Mapped, Some [0x13e6]); (0xabb7, 0xabb7, Mapped, Some [0x13e7]); (0xabb8, 0xabb8, Mapped, Some [0x13e8]);
   (0xabb9, 0xabb9, Mapped, Some [0x13e9]); (0xabba, 0xabba, Mapped, Some [0x13ea]); (0xabbb, 0xabbb, Mapped, Some [0x13eb]);
   (0xabbc, 0xabbc, Mapped, Some [0x13ec]); (0xabbd, 0xabbd, Mapped, Some [0x13ed]); (0xabbe, 0xabbe, Mapped, Some [0x13ee]);
   (0xabbf, 0xabbf, Mapped, Some [0x13ef]); (0xabc0, 0xabea, Valid, None); (0xabeb, 0xabeb, Valid, Some []);
   (0xabec, 0xabed, Valid, None); (0xabee, 0xabef, Disallowed, None); (0xabf0, 0xabf9, Valid, None);
   (0xabfa, 0xabff, Disallowed, None); (0xac00, 0xd7a3, Valid, None); (0xd7a4, 0xd7af, Disallowed, None);
   (0xd7b0, 0xd7c6, Valid, Some []); (0xd7c7, 0xd7ca, Disallowed, None); (0xd7cb, 0xd7fb, Valid, Some []);
   (0xd7fc, 0xd7ff, Disallowed, None); (0xd800, 0xdfff, Disallowed, None); (0xe000, 0xf8ff, Disallowed, None);
   (0xf900, 0xf900, Mapped, Some [0x8c48]); (0xf901, 0xf901, Mapped, Some [0x66f4]); (0xf902, 0xf902, Mapped, Some [0x8eca]);
   (0xf903, 0xf903, Mapped, Some [0x8cc8]); (0xf904, 0xf904, Mapped, Some [0x6ed1]); (0xf905, 0xf905, Mapped, Some [0x4e32]);
   (0xf906, 0xf906, Mapped, Some [0x53e5]); (0xf907, 0xf908, Mapped, Some [0x9f9c]); (0xf909, 0xf909, Mapped, Some [0x5951]);
   (0xf90a, 0xf90a, Mapped, Some [0x91d1]); (0xf90b, 0xf90b, Mapped, Some [0x5587]); (0xf90c, 0xf90c, Mapped, Some [0x5948]);
   (0xf90d, 0xf90d, Mapped, Some [0x61f6]); (0xf90e, 0xf90e, Mapped, Some [0x7669]); (0xf90f, 0xf90f, Mapped, Some [0x7f85]);
   (0xf910, 0xf910, Mapped, Some [0x863f]); (0xf911, 0xf911, Mapped, Some [0x87ba]); (0xf912, 0xf912, Mapped, Some [0x88f8]);
   (0xf913, 0xf913, Mapped, Some [0x908f]); (0xf914, 0xf914, Mapped, Some [0x6a02]); (0xf915, 0xf915, Mapped, Some [0x6d1b]);
   (0xf916, 0xf916, Mapped, Some [0x70d9]); (0xf917, 0xf917, Mapped, Some [0x73de]); (0xf918, 0xf918, Mapped, Some [0x843d]);
   (0xf919, 0xf919, Mapped, Some [0x916a]); (0xf91a, 0xf91a, Mapped, Some [0x99f1]); (0xf91b, 0xf91b, Mapped, Some [0x4e82]);
   (0xf91c, 0xf91c, Mapped, Some [0x5375]); (0xf91d, 0xf91d, Mapped, Some [0x6b04]); (0xf91e, 0xf91e, Mapped, Some [0x721b]);
   (0xf91f, 0xf91f, Mapped, Some [0x862d]); (0xf920, 0xf920, Mapped, Some [0x9e1e]); (0xf921, 0xf921, Mapped, Some [0x5d50]);
   (0xf922, 0xf922, Mapped, Some [0x6feb]); (0xf923, 0xf923, Mapped, Some [0x85cd]); (0xf924, 0xf924, Mapped, Some [0x8964]);
   (0xf925, 0xf925, Mapped, Some [0x62c9]); (0xf926, 0xf926, Mapped, Some [0x81d8]); (0xf927, 0xf927, Mapped, Some [0x881f]);
   (0xf928, 0xf928, Mapped, Some [0x5eca]); (0xf929, 0xf929, Mapped, Some [0x6717]); (0xf92a, 0xf92a, Mapped, Some [0x6d6a]);
   (0xf92b, 0xf92b, Mapped, Some [0x72fc]); (0xf92c, 0xf92c, Mapped, Some [0x90ce]); (0xf92d, 0xf92d, Mapped, Some [0x4f86]);
   (0xf92e, 0xf92e, Mapped, Some [0x51b7]); (0xf92f, 0xf92f, Mapped, Some [0x52de]); (0xf930, 0xf930, Mapped, Some [0x64c4]);
   (0xf931, 0xf931, Mapped, Some [0x6ad3]); (0xf932, 0xf932, Mapped, Some [0x7210]); (0xf933, 0xf933, Mapped, Some [0x76e7]);
   (0xf934, 0xf934, Mapped, Some [0x8001]); (0xf935, 0xf935, Mapped, Some [0x8606]); (0xf936, 0xf936, Mapped, Some [0x865c]);
   (0xf937, 0xf937, Mapped, Some [0x8def]); (0xf938, 0xf938, Mapped, Some [0x9732]); (0xf939, 0xf939, Mapped, Some [0x9b6f]);
   (0xf93a, 0xf93a, Mapped, Some [0x9dfa]); (0xf93b, 0xf93b, Mapped, Some [0x788c]); (0xf93c, 0xf93c, Mapped, Some [0x797f]);
   (0xf93d, 0xf93d, Mapped, Some [0x7da0]); (0xf93e, 0xf93e, Mapped, Some [0x83c9]); (0xf93f, 0xf93f, Mapped, Some [0x9304]);
   (0xf940, 0xf940, Mapped, Some [0x9e7f]); (0xf941, 0xf941, Mapped, Some [0x8ad6]); (0xf942, 0xf942, Mapped, Some [0x58df]);
   (0xf943, 0xf943, Mapped, Some [0x5f04]); (0xf944, 0xf944, Mapped, Some [0x7c60]); (0xf945, 0xf945, Mapped, Some [0x807e]);
   (0xf946, 0xf946, Mapped, Some [0x7262]); (0xf947, 0xf947, Mapped, Some [0x78ca]); (0xf948, 0xf948, Mapped, Some [0x8cc2]);
   (0xf949, 0xf949, Mapped, Some [0x96f7]); (0xf94a, 0xf94a, Mapped, Some [0x58d8]); (0xf94b, 0xf94b, Mapped, Some [0x5c62]);
   (0xf94c, 0xf94c, Mapped, Some [0x6a13]); (0xf94d, 0xf94d, Mapped, Some [0x6dda]); (0xf94e, 0xf94e, Mapped, Some [0x6f0f]);
   (0xf94f, 0xf94f, Mapped, Some [0x7d2f]); (0xf950, 0xf950, Mapped, Some [0x7e37]); (0xf951, 0xf951, Mapped, Some [0x964b]);
   (0xf952, 0xf952, Mapped, Some [0x52d2]); (0xf953, 0xf953, Mapped, Some [0x808b]); (0xf954, 0xf954, Mapped, Some [0x51dc]);
   (0xf955, 0xf955, Mapped, Some [0x51cc]); (0xf956, 0xf956, Mapped, Some [0x7a1c]); (0xf957, 0xf957, Mapped, Some [0x7dbe]);
   (0xf958, 0xf958, Mapped, Some [0x83f1]); (0xf959, 0xf959, Mapped, Some [0x9675]); (0xf95a, 0xf95a, Mapped, Some [0x8b80]);
   (0xf95b, 0xf95b, Mapped, Some [0x62cf]); (0xf95c, 0xf95c, Mapped, Some [0x6a02]); (0xf95d, 0xf95d, Mapped, Some [0x8afe]);
   (0xf95e, 0xf95e, Mapped, Some [0x4e39]); (0xf95f, 0xf95f, Mapped, Some [0x5be7]); (0xf960, 0xf960, Mapped, Some [0x6012]);
   (0xf961, 0xf961, Mapped, Some [0x7387]); (0xf962, 0xf962, Mapped, Some [0x7570]); (0xf963, 0xf963, Mapped, Some [0x5317]);
   (0xf964, 0xf964, Mapped, Some [0x78fb]); (0xf965, 0xf965, Mapped, Some [0x4fbf]); (0xf966, 0xf966, Mapped, Some [0x5fa9]);
   (0xf967, 0xf967, Mapped, Some [0x4e0d]); (0xf968, 0xf968, Mapped, Some [0x6ccc]); (0xf969, 0xf969, Mapped, Some [0x6578]);
   (0xf96a, 0xf96a, Mapped, Some [0x7d22]); (0xf96b, 0xf96b, Mapped, Some [0x53c3]); (0xf96c, 0xf96c, Mapped, Some [0x585e]);
   (0xf96d, 0xf96d, Mapped, Some [0x7701]); (0xf96e, 0xf96e, Mapped, Some [0x8449]); (0xf96f, 0xf96f, Mapped, Some [0x8aaa]);
   (0xf970, 0xf970, Mapped, Some [0x6bba]); (0xf971, 0xf971, Mapped, Some [0x8fb0]); (0xf972, 0xf972, Mapped, Some [0x6c88]);
   (0xf973, 0xf973, Mapped, Some [0x62fe]); (0xf974, 0xf974, Mapped, Some [0x82e5]); (0xf975, 0xf975, Mapped, Some [0x63a0]);
   (0xf976, 0xf976, Mapped, Some [0x7565]); (0xf977, 0xf977, Mapped, Some [0x4eae]); (0xf978, 0xf978, Mapped, Some [0x5169]);
   (0xf979, 0xf979, Mapped, Some [0x51c9]); (0xf97a, 0xf97a, Mapped, Some [0x6881]); (0xf97b, 0xf97b, Mapped, Some [0x7ce7]);
   (0xf97c, 0xf97c, Mapped, Some [0x826f]); (0xf97d, 0xf97d, Mapped, Some [0x8ad2]); (0xf97e, 0xf97e, Mapped, Some [0x91cf]);
   (0xf97f, 0xf97f, Mapped, Some [0x52f5]); (0xf980, 0xf980, Mapped, Some [0x5442]); (0xf981, 0xf981, Mapped, Some [0x5973]);
   (0xf982, 0xf982, Mapped, Some [0x5eec]); (0xf983, 0xf983, Mapped, Some [0x65c5]); (0xf984, 0xf984, Mapped, Some [0x6ffe]);
   (0xf985, 0xf985, Mapped, Some [0x792a]); (0xf986, 0xf986, Mapped, Some [0x95ad]); (0xf987, 0xf987, Mapped, Some [0x9a6a]);
   (0xf988, 0xf988, Mapped, Some [0x9e97]); (0xf989, 0xf989, Mapped, Some [0x9ece]); (0xf98a, 0xf98a, Mapped, Some [0x529b]);
   (0xf98b, 0xf98b, Mapped, Some [0x66c6]); (0xf98c, 0xf98c, Mapped, Some [0x6b77]); (0xf98d, 0xf98d, Mapped, Some [0x8f62]);
   (0xf98e, 0xf98e, Mapped, Some [0x5e74]); (0xf98f, 0xf98f, Mapped, Some [0x6190]); (0xf990, 0xf990, Mapped, Some [0x6200]);
   (0xf991, 0xf991, Mapped, Some [0x649a]); (0xf992, 0xf992, Mapped, Some [0x6f23]); (0xf993, 0xf993, Mapped, Some [0x7149]);
   (0xf994, 0xf994, Mapped, Some [0x7489]); (0xf995, 0xf995, Mapped, Some [0x79ca]); (0xf996, 0xf996, Mapped, Some [0x7df4]);
   (0xf997, 0xf997, Mapped, Some [0x806f]); (0xf998, 0xf998, Mapped, Some [0x8f26]); (0xf999, 0xf999, Mapped, Some [0x84ee]);
   (0xf99a, 0xf99a, Mapped, Some [0x9023]); (0xf99b, 0xf99b, Mapped, Some [0x934a]); (0xf99c, 0xf99c, Mapped, Some [0x5217]);
   (0xf99d, 0xf99d, Mapped, Some [0x52a3]); (0xf99e, 0xf99e, Mapped, Some [0x54bd]); (0xf99f, 0xf99f, Mapped, Some [0x70c8]);
   (0xf9a0, 0xf9a0, Mapped, Some [0x88c2]); (0xf9a1, 0xf9a1, Mapped, Some [0x8aaa]); (0xf9a2, 0xf9a2, Mapped, Some [0x5ec9]);
   (0xf9a3, 0xf9a3, Mapped, Some [0x5ff5]); (0xf9a4, 0xf9a4, Mapped, Some [0x637b]); (0xf9a5, 0xf9a5, Mapped, Some [0x6bae]);
   (0xf9a6, 0xf9a6, Mapped, Some [0x7c3e]); (0xf9a7, 0xf9a7, Mapped, Some [0x7375]); (0xf9a8, 0xf9a8, Mapped, Some [0x4ee4]);
   (0xf9a9, 0xf9a9, Mapped, Some [0x56f9]); (0xf9aa, 0xf9aa, Mapped, Some [0x5be7]); (0xf9ab, 0xf9ab, Mapped, Some [0x5dba]);
   (0xf9ac, 0xf9ac, Mapped, Some [0x601c]); (0xf9ad, 0xf9ad, Mapped, Some [0x73b2]); (0xf9ae, 0xf9ae, Mapped, Some [0x7469]);
   (0xf9af, 0xf9af, Mapped, Some [0x7f9a]); (0xf9b0, 0xf9b0, Mapped, Some [0x8046]); (0xf9b1, 0xf9b1, Mapped, Some [0x9234]);
   (0xf9b2, 0xf9b2, Mapped, Some [0x96f6]); (0xf9b3, 0xf9b3, Mapped, Some [0x9748]); (0xf9b4, 0xf9b4, Mapped, Some [0x9818]);
   (0xf9b5, 0xf9b5, Mapped, Some [0x4f8b]); (0xf9b6, 0xf9b6, Mapped, Some [0x79ae]); (0xf9b7, 0xf9b7, Mapped, Some [0x91b4]);
   (0xf9b8, 0xf9b8, Mapped, Some [0x96b8]); (0xf9b9, 0xf9b9, Mapped, Some [0x60e1]); (0xf9ba, 0xf9ba, Mapped, Some [0x4e86]);
   (0xf9bb, 0xf9bb, Mapped, Some [0x50da]); (0xf9bc, 0xf9bc, Mapped, Some [0x5bee]); (0xf9bd, 0xf9bd, Mapped, Some [0x5c3f]);
   (0xf9be, 0xf9be, Mapped, Some [0x6599]); (0xf9bf, 0xf9bf, Mapped, Some [0x6a02]); (0xf9c0, 0xf9c0, Mapped, Some [0x71ce]);
   (0xf9c1, 0xf9c1, Mapped, Some [0x7642]); (0xf9c2, 0xf9c2, Mapped, Some [0x84fc]); (0xf9c3, 0xf9c3, Mapped, Some [0x907c]);
   (0xf9c4, 0xf9c4, Mapped, Some [0x9f8d]); (0xf9c5, 0xf9c5, Mapped, Some [0x6688]); (0xf9c6, 0xf9c6, Mapped, Some [0x962e]);
   (0xf9c7, 0xf9c7, Mapped, Some [0x5289]); (0xf9c8, 0xf9c8, Mapped, Some [0x677b]); (0xf9c9, 0xf9c9, Mapped, Some [0x67f3]);
   (0xf9ca, 0xf9ca, Mapped, Some [0x6d41]); (0xf9cb, 0xf9cb, Mapped, Some [0x6e9c]); (0xf9cc, 0xf9cc, Mapped, Some [0x7409]);
   (0xf9cd, 0xf9cd, Mapped, Some [0x7559]); (0xf9ce, 0xf9ce, Mapped, Some [0x786b]); (0xf9cf, 0xf9cf, Mapped, Some [0x7d10]);
   (0xf9d0, 0xf9d0, Mapped, Some [0x985e]); (0xf9d1, 0xf9d1, Mapped, Some [0x516d]); (0xf9d2, 0xf9d2, Mapped, Some [0x622e]);
   (0xf9d3, 0xf9d3, Mapped, Some [0x9678]); (0xf9d4, 0xf9d4, Mapped, Some [0x502b]); (0xf9d5, 0xf9d5, Mapped, Some [0x5d19]);
   (0xf9d6, 0xf9d6, Mapped, Some [0x6dea]); (0xf9d7, 0xf9d7, Mapped, Some [0x8f2a]); (0xf9d8, 0xf9d8, Mapped, Some [0x5f8b]);
   (0xf9d9, 0xf9d9, Mapped, Some [0x6144]); (0xf9da, 0xf9da, Mapped, Some [0x6817]); (0xf9db, 0xf9db, Mapped, Some [0x7387]);
   (0xf9dc, 0xf9dc, Mapped, Some [0x9686]); (0xf9dd, 0xf9dd, Mapped, Some [0x5229]); (0xf9de, 0xf9de, Mapped, Some [0x540f]);
   (0xf9df, 0xf9df, Mapped, Some [0x5c65]); (0xf9e0, 0xf9e0, Mapped, Some [0x6613]); (0xf9e1, 0xf9e1, Mapped, Some [0x674e]);
   (0xf9e2, 0xf9e2, Mapped, Some [0x68a8]); (0xf9e3, 0xf9e3, Mapped, Some [0x6ce5]); (0xf9e4, 0xf9e4, Mapped, Some [0x7406]);
   (0xf9e5, 0xf9e5, Mapped, Some [0x75e2]); (0xf9e6, 0xf9e6, Mapped, Some [0x7f79]); (0xf9e7, 0xf9e7, Mapped, Some [0x88cf]);
   (0xf9e8, 0xf9e8, Mapped, Some [0x88e1]); (0xf9e9, 0xf9e9, Mapped, Some [0x91cc]); (0xf9ea, 0xf9ea, Mapped, Some [0x96e2]);
   (0xf9eb, 0xf9eb, Mapped, Some [0x533f]); (0xf9ec, 0xf9ec, Mapped, Some [0x6eba]); (0xf9ed, 0xf9ed, Mapped, Some [0x541d]);
   (0xf9ee, 0xf9ee, Mapped, Some [0x71d0]); (0xf9ef, 0xf9ef, Mapped, Some [0x7498]); (0xf9f0, 0xf9f0, Mapped, Some [0x85fa]);
   (0xf9f1, 0xf9f1, Mapped, Some [0x96a3]); (0xf9f2, 0xf9f2, Mapped, Some [0x9c57]); (0xf9f3, 0xf9f3, Mapped, Some [0x9e9f]);
   (0xf9f4, 0xf9f4, Mapped, Some [0x6797]); (0xf9f5, 0xf9f5, Mapped, Some [0x6dcb]); (0xf9f6, 0xf9f6, Mapped, Some [0x81e8]);
   (0xf9f7, 0xf9f7, Mapped, Some [0x7acb]); (0xf9f8, 0xf9f8, Mapped, Some [0x7b20]); (0xf9f9, 0xf9f9, Mapped, Some [0x7c92]);
   (0xf9fa, 0xf9fa, Mapped, Some [0x72c0]); (0xf9fb, 0xf9fb, Mapped, Some [0x7099]); (0xf9fc, 0xf9fc, Mapped, Some [0x8b58]);
   (0xf9fd, 0xf9fd, Mapped, Some [0x4ec0]); (0xf9fe, 0xf9fe, Mapped, Some [0x8336]); (0xf9ff, 0xf9ff, Mapped, Some [0x523a]);
   (0xfa00, 0xfa00, Mapped, Some [0x5207]); (0xfa01, 0xfa01, Mapped, Some [0x5ea6]); (0xfa02, 0xfa02, Mapped, Some [0x62d3]);
   (0xfa03, 0xfa03, Mapped, Some [0x7cd6]); (0xfa04, 0xfa04, Mapped, Some [0x5b85]); (0xfa05, 0xfa05, Mapped, Some [0x6d1e]);
   (0xfa06, 0xfa06, Mapped, Some [0x66b4]); (0xfa07, 0xfa07, Mapped, Some [0x8f3b]); (0xfa08, 0xfa08, Mapped, Some [0x884c]);
   (0xfa09, 0xfa09, Mapped, Some [0x964d]); (0xfa0a, 0xfa0a, Mapped, Some [0x898b]); (0xfa0b, 0xfa0b, Mapped, Some [0x5ed3]);
   (0xfa0c, 0xfa0c, Mapped, Some [0x5140]); (0xfa0d, 0xfa0d, Mapped, Some [0x55c0]); (0xfa0e, 0xfa0f, Valid, None);
   (0xfa10, 0xfa10, Mapped, Some [0x585a]); (0xfa11, 0xfa11, Valid, None); (0xfa12, 0xfa12, Mapped, Some [0x6674]);
   (0xfa13, 0xfa14, Valid, None); (0xfa15, 0xfa15, Mapped, Some [0x51de]); (0xfa16, 0xfa16, Mapped, Some [0x732a]);
   (0xfa17, 0xfa17, Mapped, Some [0x76ca]); (0xfa18, 0xfa18, Mapped, Some [0x793c]); (0xfa19, 0xfa19, Mapped, Some [0x795e]);
   (0xfa1a, 0xfa1a, Mapped, Some [0x7965]); (0xfa1b, 0xfa1b, Mapped, Some [0x798f]); (0xfa1c, 0xfa1c, Mapped, Some [0x9756]);
   (0xfa1d, 0xfa1d, Mapped, Some [0x7cbe]); (0xfa1e, 0xfa1e, Mapped, Some [0x7fbd]); (0xfa1f, 0xfa1f, Valid, None);
   (0xfa20, 0xfa20, Mapped, Some [0x8612]); (0xfa21, 0xfa21, Valid, None); (0xfa22, 0xfa22, Mapped, Some [0x8af8]);
   (0xfa23, 0xfa24, Valid, None); (0xfa25, 0xfa25, Mapped, Some [0x9038]); (0xfa26, 0xfa26, Mapped, Some [0x90fd]);
   (0xfa27, 0xfa29, Valid, None); (0xfa2a, 0xfa2a, Mapped, Some [0x98ef]); (0xfa2b, 0xfa2b, Mapped, Some [0x98fc]);
   (0xfa2c, 0xfa2c, Mapped, Some [0x9928]); (0xfa2d, 0xfa2d, Mapped, Some [0x9db4]); (0xfa2e, 0xfa2e, Mapped, Some [0x90de]);
   (0xfa2f, 0xfa2f, Mapped, Some [0x96b7]); (0xfa30, 0xfa30, Mapped, Some [0x4fae]); (0xfa31, 0xfa31, Mapped, Some [0x50e7]);
   (0xfa32, 0xfa32, Mapped, Some [0x514d]); (0xfa33, 0xfa33, Mapped, Some [0x52c9]); (0xfa34, 0xfa34, Mapped, Some [0x52e4]);
   (0xfa35, 0xfa35, Mapped, Some [0x5351]); (0xfa36, 0xfa36, Mapped, Some [0x559d]); (0xfa37, 0xfa37, Mapped, Some [0x5606]);
   (0xfa38, 0xfa38, Mapped, Some [0x5668]); (0xfa39, 0xfa39, Mapped, Some [0x5840]); (0xfa3a, 0xfa3a, Mapped, Some [0x58a8]);
   (0xfa3b, 0xfa3b, Mapped, Some [0x5c64]); (0xfa3c, 0xfa3c, Mapped, Some [0x5c6e]); (0xfa3d, 0xfa3d, Mapped, Some [0x6094]);
   (0xfa3e, 0xfa3e, Mapped, Some [0x6168]); (0xfa3f, 0xfa3f, Mapped, Some [0x618e]); (0xfa40, 0xfa40, Mapped, Some [0x61f2]);
   (0xfa41, 0xfa41, Mapped, Some [0x654f]); (0xfa42, 0xfa42, Mapped, Some [0x65e2]); (0xfa43, 0xfa43, Mapped, Some [0x6691]);
   (0xfa44, 0xfa44, Mapped, Some [0x6885]); (0xfa45, 0xfa45, Mapped, Some [0x6d77]); (0xfa46, 0xfa46, Mapped, Some [0x6e1a]);
   (0xfa47, 0xfa47, Mapped, Some [0x6f22]); (0xfa48, 0xfa48, Mapped, Some [0x716e]); (0xfa49, 0xfa49, Mapped, Some [0x722b]);
   (0xfa4a, 0xfa4a, Mapped, Some [0x7422]); (0xfa4b, 0xfa4b, Mapped, Some [0x7891]); (0xfa4c, 0xfa4c, Mapped, Some [0x793e]);
   (0xfa4d, 0xfa4d, Mapped, Some [0x7949]); (0xfa4e, 0xfa4e, Mapped, Some [0x7948]); (0xfa4f, 0xfa4f, Mapped, Some [0x7950]);
   (0xfa50, 0xfa50, Mapped, Some [0x7956]); (0xfa51, 0xfa51, Mapped, Some [0x795d]); (0xfa52, 0xfa52, Mapped, Some [0x798d]);
   (0xfa53, 0xfa53, Mapped, Some [0x798e]); (0xfa54, 0xfa54, Mapped, Some [0x7a40]); (0xfa55, 0xfa55, Mapped, Some [0x7a81]);
   (0xfa56, 0xfa56, Mapped, Some [0x7bc0]); (0xfa57, 0xfa57, Mapped, Some [0x7df4]); (0xfa58, 0xfa58, Mapped, Some [0x7e09]);
   (0xfa59, 0xfa59, Mapped, Some [0x7e41]); (0xfa5a, 0xfa5a, Mapped, Some [0x7f72]); (0xfa5b, 0xfa5b, Mapped, Some [0x8005]);
   (0xfa5c, 0xfa5c, Mapped, Some [0x81ed]); (0xfa5d, 0xfa5e, Mapped, Some [0x8279]); (0xfa5f, 0xfa5f, Mapped, Some [0x8457]);
   (0xfa60, 0xfa60, Mapped, Some [0x8910]); (0xfa61, 0xfa61, Mapped, Some [0x8996]); (0xfa62, 0xfa62, Mapped, Some [0x8b01]);
   (0xfa63, 0xfa63, Mapped, Some [0x8b39]); (0xfa64, 0xfa64, Mapped, Some [0x8cd3]); (0xfa65, 0xfa65, Mapped, Some [0x8d08]);
   (0xfa66, 0xfa66, Mapped, Some [0x8fb6]); (0xfa67, 0xfa67, Mapped, Some [0x9038]); (0xfa68, 0xfa68, Mapped, Some [0x96e3]);
   (0xfa69, 0xfa69, Mapped, Some [0x97ff]); (0xfa6a, 0xfa6a, Mapped, Some [0x983b]); (0xfa6b, 0xfa6b, Mapped, Some [0x6075]);
   (0xfa6c, 0xfa6c, Mapped, Some [0x242ee]); (0xfa6d, 0xfa6d, Mapped, Some [0x8218]); (0xfa6e, 0xfa6f, Disallowed, None);
   (0xfa70, 0xfa70, Mapped, Some [0x4e26]); (0xfa71, 0xfa71, Mapped, Some [0x51b5]); (0xfa72, 0xfa72, Mapped, Some [0x5168]);
   (0xfa73, 0xfa73, Mapped, Some [0x4f80]); (0xfa74, 0xfa74, Mapped, Some [0x5145]); (0xfa75, 0xfa75, Mapped, Some [0x5180]);
   (0xfa76, 0xfa76, Mapped, Some [0x52c7]); (0xfa77, 0xfa77, Mapped, Some [0x52fa]); (0xfa78, 0xfa78, Mapped, Some [0x559d]);
   (0xfa79, 0xfa79, Mapped, Some [0x5555]); (0xfa7a, 0xfa7a, Mapped, Some [0x5599]); (0xfa7b, 0xfa7b, Mapped, Some [0x55e2]);
   (0xfa7c, 0xfa7c, Mapped, Some [0x585a]); (0xfa7d, 0xfa7d, Mapped, Some [0x58b3]); (0xfa7e, 0xfa7e, Mapped, Some [0x5944]);
   (0xfa7f, 0xfa7f, Mapped, Some [0x5954]); (0xfa80, 0xfa80, Mapped, Some [0x5a62]); (0xfa81, 0xfa81, Mapped, Some [0x5b28]);
   (0xfa82, 0xfa82, Mapped, Some [0x5ed2]); (0xfa83, 0xfa83, Mapped, Some [0x5ed9]); (0xfa84, 0xfa84, Mapped, Some [0x5f69]);
   (0xfa85, 0xfa85, Mapped, Some [0x5fad]); (0xfa86, 0xfa86, Mapped, Some [0x60d8]); (0xfa87, 0xfa87, Mapped, Some [0x614e]);
   (0xfa88, 0xfa88, Mapped, Some [0x6108]); (0xfa89, 0xfa89, Mapped, Some [0x618e]); (0xfa8a, 0xfa8a, Mapped, Some [0x6160]);
   (0xfa8b, 0xfa8b, Mapped, Some [0x61f2]); (0xfa8c, 0xfa8c, Mapped, Some [0x6234]); (0xfa8d, 0xfa8d, Mapped, Some [0x63c4]);
   (0xfa8e, 0xfa8e, Mapped, Some [0x641c]); (0xfa8f, 0xfa8f, Mapped, Some [0x6452]); (0xfa90, 0xfa90, Mapped, Some [0x6556]);
   (0xfa91, 0xfa91, Mapped, Some [0x6674]); (0xfa92, 0xfa92, Mapped, Some [0x6717]); (0xfa93, 0xfa93, Mapped, Some [0x671b]);
   (0xfa94, 0xfa94, Mapped, Some [0x6756]); (0xfa95, 0xfa95, Mapped, Some [0x6b79]); (0xfa96, 0xfa96, Mapped, Some [0x6bba]);
   (0xfa97, 0xfa97, Mapped, Some [0x6d41]); (0xfa98, 0xfa98, Mapped, Some [0x6edb]); (0xfa99, 0xfa99, Mapped, Some [0x6ecb]);
   (0xfa9a, 0xfa9a, Mapped, Some [0x6f22]); (0xfa9b, 0xfa9b, Mapped, Some [0x701e]); (0xfa9c, 0xfa9c, Mapped, Some [0x716e]);
   (0xfa9d, 0xfa9d, Mapped, Some [0x77a7]); (0xfa9e, 0xfa9e, Mapped, Some [0x7235]); (0xfa9f, 0xfa9f, Mapped, Some [0x72af]);
   (0xfaa0, 0xfaa0, Mapped, Some [0x732a]); (0xfaa1, 0xfaa1, Mapped, Some [0x7471]); (0xfaa2, 0xfaa2, Mapped, Some [0x7506]);
   (0xfaa3, 0xfaa3, Mapped, Some [0x753b]); (0xfaa4, 0xfaa4, Mapped, Some [0x761d]); (0xfaa5, 0xfaa5, Mapped, Some [0x761f]);
   (0xfaa6, 0xfaa6, Mapped, Some [0x76ca]); (0xfaa7, 0xfaa7, Mapped, Some [0x76db]); (0xfaa8, 0xfaa8, Mapped, Some [0x76f4]);
   (0xfaa9, 0xfaa9, Mapped, Some [0x774a]); (0xfaaa, 0xfaaa, Mapped, Some [0x7740]); (0xfaab, 0xfaab, Mapped, Some [0x78cc]);
   (0xfaac, 0xfaac, Mapped, Some [0x7ab1]); (0xfaad, 0xfaad, Mapped, Some [0x7bc0]); (0xfaae, 0xfaae, Mapped, Some [0x7c7b]);
   (0xfaaf, 0xfaaf, Mapped, Some [0x7d5b]); (0xfab0, 0xfab0, Mapped, Some [0x7df4]); (0xfab1, 0xfab1, Mapped, Some [0x7f3e]);
   (0xfab2, 0xfab2, Mapped, Some [0x8005]); (0xfab3, 0xfab3, Mapped, Some [0x8352]); (0xfab4, 0xfab4, Mapped, Some [0x83ef]);
   (0xfab5, 0xfab5, Mapped, Some [0x8779]); (0xfab6, 0xfab6, Mapped, Some [0x8941]); (0xfab7, 0xfab7, Mapped, Some [0x8986]);
   (0xfab8, 0xfab8, Mapped, Some [0x8996]); (0xfab9, 0xfab9, Mapped, Some [0x8abf]); (0xfaba, 0xfaba, Mapped, Some [0x8af8]);
   (0xfabb, 0xfabb, Mapped, Some [0x8acb]); (0xfabc, 0xfabc, Mapped, Some [0x8b01]); (0xfabd, 0xfabd, Mapped, Some [0x8afe]);
   (0xfabe, 0xfabe, Mapped, Some [0x8aed]); (0xfabf, 0xfabf, Mapped, Some [0x8b39]); (0xfac0, 0xfac0, Mapped, Some [0x8b8a]);
   (0xfac1, 0xfac1, Mapped, Some [0x8d08]); (0xfac2, 0xfac2, Mapped, Some [0x8f38]); (0xfac3, 0xfac3, Mapped, Some [0x9072]);
   (0xfac4, 0xfac4, Mapped, Some [0x9199]); (0xfac5, 0xfac5, Mapped, Some [0x9276]); (0xfac6, 0xfac6, Mapped, Some [0x967c]);
   (0xfac7, 0xfac7, Mapped, Some [0x96e3]); (0xfac8, 0xfac8, Mapped, Some [0x9756]); (0xfac9, 0xfac9, Mapped, Some [0x97db]);
   (0xfaca, 0xfaca, Mapped, Some [0x97ff]); (0xfacb, 0xfacb, Mapped, Some [0x980b]); (0xfacc, 0xfacc, Mapped, Some [0x983b]);
   (0xfacd, 0xfacd, Mapped, Some [0x9b12]); (0xface, 0xface, Mapped, Some [0x9f9c]); (0xfacf, 0xfacf, Mapped, Some [0x2284a]);
   (0xfad0, 0xfad0, Mapped, Some [0x22844]); (0xfad1, 0xfad1, Mapped, Some [0x233d5]); (0xfad2, 0xfad2, Mapped, Some [0x3b9d]);
   (0xfad3, 0xfad3, Mapped, Some [0x4018]); (0xfad4, 0xfad4, Mapped, Some [0x4039]); (0xfad5, 0xfad5, Mapped, Some [0x25249]);
   (0xfad6, 0xfad6, Mapped, Some [0x25cd0]); (0xfad7, 0xfad7, Mapped, Some [0x27ed3]); (0xfad8, 0xfad8, Mapped, Some [0x9f43]);
   (0xfad9, 0xfad9, Mapped, Some [0x9f8e]); (0xfada, 0xfaff, Disallowed, None); (0xfb00, 0xfb00, Mapped, Some [0x66; 0x66]);
   (0xfb01, 0xfb01, Mapped, Some [0x66; 0x69]); (0xfb02, 0xfb02, Mapped, Some [0x66; 0x6c]); (0xfb03, 0xfb03, Mapped, Some [0x66; 0x66; 0x69]);
   (0xfb04, 0xfb04, Mapped, Some [0x66; 0x66; 0x6c]); (0xfb05, 0xfb06, Mapped, Some [0x73; 0x74]); (0xfb07, 0xfb12, Disallowed, None);
   (0xfb13, 0xfb13, Mapped, Some [0x574; 0x576]); (0xfb14, 0xfb14, Mapped, Some [0x574; 0x565]); (0xfb15, 0xfb15, Mapped, Some [0x574; 0x56b]);
   (0xfb16, 0xfb16, Mapped, Some [0x57e; 0x576]); (0xfb17, 0xfb17, Mapped, Some [0x574; 0x56d]); (0xfb18, 0xfb1c, Disallowed, None);
   (0xfb1d, 0xfb1d, Mapped, Some [0x5d9; 0x5b4]); (0xfb1e, 0xfb1e, Valid, None); (0xfb1f, 0xfb1f, Mapped, Some [0x5f2; 0x5b7]);
   (0xfb20, 0xfb20, Mapped, Some [0x5e2]); (0xfb21, 0xfb21, Mapped, Some [0x5d0]); (0xfb22, 0xfb22, Mapped, Some [0x5d3]);
   (0xfb23, 0xfb23, Mapped, Some [0x5d4]); (0xfb24, 0xfb24, Mapped, Some [0x5db]); (0xfb25, 0xfb25, Mapped, Some [0x5dc]);
   (0xfb26, 0xfb26, Mapped, Some [0x5dd]); (0xfb27, 0xfb27, Mapped, Some [0x5e8]); (0xfb28, 0xfb28, Mapped, Some [0x5ea]);
   (0xfb29, 0xfb29, Std3_mapped, Some [0x2b]); (0xfb2a, 0xfb2a, Mapped, Some [0x5e9; 0x5c1]); (0xfb2b, 0xfb2b, Mapped, Some [0x5e9; 0x5c2]);
   (0xfb2c, 0xfb2c, Mapped, Some [0x5e9; 0x5bc; 0x5c1]); (0xfb2d, 0xfb2d, Mapped, Some [0x5e9; 0x5bc; 0x5c2]); (0xfb2e, 0xfb2e, Mapped, Some [0x5d0; 0x5b7]);
   (0xfb2f, 0xfb2f, Mapped, Some [0x5d0; 0x5b8]); (0xfb30, 0xfb30, Mapped, Some [0x5d0; 0x5bc]); (0xfb31, 0xfb31, Mapped, Some [0x5d1; 0x5bc]);
   (0xfb32, 0xfb32, Mapped, Some [0x5d2; 0x5bc]); (0xfb33, 0xfb33, Mapped, Some [0x5d3; 0x5bc]); (0xfb34, 0xfb34, Mapped, Some [0x5d4; 0x5bc]);
   (0xfb35, 0xfb35, Mapped, Some [0x5d5; 0x5bc]); (0xfb36, 0xfb36, Mapped, Some [0x5d6; 0x5bc]); (0xfb37, 0xfb37, Disallowed, None);
   (0xfb38, 0xfb38, Mapped, Some [0x5d8; 0x5bc]); (0xfb39, 0xfb39, Mapped, Some [0x5d9; 0x5bc]); (0xfb3a, 0xfb3a, Mapped, Some [0x5da; 0x5bc]);
   (0xfb3b, 0xfb3b, Mapped, Some [0x5db; 0x5bc]); (0xfb3c, 0xfb3c, Mapped, Some [0x5dc; 0x5bc]); (0xfb3d, 0xfb3d, Disallowed, None);
   (0xfb3e, 0xfb3e, Mapped, Some [0x5de; 0x5bc]); (0xfb3f, 0xfb3f, Disallowed, None); (0xfb40, 0xfb40, Mapped, Some [0x5e0; 0x5bc]);
   (0xfb41, 0xfb41, Mapped, Some [0x5e1; 0x5bc]); (0xfb42, 0xfb42, Disallowed, None); (0xfb43, 0xfb43, Mapped, Some [0x5e3; 0x5bc]);
   (0xfb44, 0xfb44, Mapped, Some [0x5e4; 0x5bc]); (0xfb45, 0xfb45, Disallowed, None); (0xfb46, 0xfb46, Mapped, Some [0x5e6; 0x5bc]);
   (0xfb47, 0xfb47, Mapped, Some [0x5e7; 0x5bc]); (0xfb48, 0xfb48, Mapped, Some [0x5e8; 0x5bc]); (0xfb49, 0xfb49, Mapped, Some [0x5e9; 0x5bc]);
   (0xfb4a, 0xfb4a, Mapped, Some [0x5ea; 0x5bc]); (0xfb4b, 0xfb4b, Mapped, Some [0x5d5; 0x5b9]); (0xfb4c, 0xfb4c, Mapped, Some [0x5d1; 0x5bf]);
   (0xfb4d, 0xfb4d, Mapped, Some [0x5db; 0x5bf]); (0xfb4e, 0xfb4e, Mapped, Some [0x5e4; 0x5bf]); (0xfb4f, 0xfb4f, Mapped, Some [0x5d0; 0x5dc]);
   (0xfb50, 0xfb51, Mapped, Some [0x671]); (0xfb52, 0xfb55, Mapped, Some [0x67b]); (0xfb56, 0xfb59, Mapped, Some [0x67e]);
   (0xfb5a, 0xfb5d, Mapped, Some [0x680]); (0xfb5e, 0xfb61, Mapped, Some [0x67a]); (0xfb62, 0xfb65, Mapped, Some [0x67f]);
   (0xfb66, 0xfb69, Mapped, Some [0x679]); (0xfb6a, 0xfb6d, Mapped, Some [0x6a4]); (0xfb6e, 0xfb71, Mapped, Some [0x6a6]);
   (0xfb72, 0xfb75, Mapped, Some [0x684]); (0xfb76, 0xfb79, Mapped, Some [0x683]); (0xfb7a, 0xfb7d, Mapped, Some [0x686]);
   (0xfb7e, 0xfb81, Mapped, Some [0x687]); (0xfb82, 0xfb83, Mapped, Some [0x68d]); (0xfb84, 0xfb85, Mapped, Some [0x68c]);
   (0xfb86, 0xfb87, Mapped, Some [0x68e]); (0xfb88, 0xfb89, Mapped, Some [0x688]); (0xfb8a, 0xfb8b, Mapped, Some [0x698]);
   (0xfb8c, 0xfb8d, Mapped, Some [0x691]); (0xfb8e, 0xfb91, Mapped, Some [0x6a9]); (0xfb92, 0xfb95, Mapped, Some [0x6af]);
   (0xfb96, 0xfb99, Mapped, Some [0x6b3]); (0xfb9a, 0xfb9d, Mapped, Some [0x6b1]); (0xfb9e, 0xfb9f, Mapped, Some [0x6ba]);
   (0xfba0, 0xfba3, Mapped, Some [0x6bb]); (0xfba4, 0xfba5, Mapped, Some [0x6c0]); (0xfba6, 0xfba9, Mapped, Some [0x6c1]);
   (0xfbaa, 0xfbad, Mapped, Some [0x6be]); (0xfbae, 0xfbaf, Mapped, Some [0x6d2]); (0xfbb0, 0xfbb1, Mapped, Some [0x6d3]);
   (0xfbb2, 0xfbc1, Valid, Some []); (0xfbc2, 0xfbd2, Disallowed, None); (0xfbd3, 0xfbd6, Mapped, Some [0x6ad]);
   (0xfbd7, 0xfbd8, Mapped, Some [0x6c7]); (0xfbd9, 0xfbda, Mapped, Some [0x6c6]); (0xfbdb, 0xfbdc, Mapped, Some [0x6c8]);
   (0xfbdd, 0xfbdd, Mapped, Some [0x6c7; 0x674]); (0xfbde, 0xfbdf, Mapped, Some [0x6cb]); (0xfbe0, 0xfbe1, Mapped, Some [0x6c5]);
   (0xfbe2, 0xfbe3, Mapped, Some [0x6c9]); (0xfbe4, 0xfbe7, Mapped, Some [0x6d0]); (0xfbe8, 0xfbe9, Mapped, Some [0x649]);
   (0xfbea, 0xfbeb, Mapped, Some [0x626; 0x627]); (0xfbec, 0xfbed, Mapped, Some [0x626; 0x6d5]); (0xfbee, 0xfbef, Mapped, Some [0x626; 0x648]);
   (0xfbf0, 0xfbf1, Mapped, Some [0x626; 0x6c7]); (0xfbf2, 0xfbf3, Mapped, Some [0x626; 0x6c6]); (0xfbf4, 0xfbf5, Mapped, Some [0x626; 0x6c8]);
   (0xfbf6, 0xfbf8, Mapped, Some [0x626; 0x6d0]); (0xfbf9, 0xfbfb, Mapped, Some [0x626; 0x649]); (0xfbfc, 0xfbff, Mapped, Some [0x6cc]);
   (0xfc00, 0xfc00, Mapped, Some [0x626; 0x62c]); (0xfc01, 0xfc01, Mapped, Some [0x626; 0x62d]); (0xfc02, 0xfc02, Mapped, Some [0x626; 0x645]);
   (0xfc03, 0xfc03, Mapped, Some [0x626; 0x649]); (0xfc04, 0xfc04, Mapped, Some [0x626; 0x64a]); (0xfc05, 0xfc05, Mapped, Some [0x628; 0x62c]);
   (0xfc06, 0xfc06, Mapped, Some [0x628; 0x62d]); (0xfc07, 0xfc07, Mapped, Some [0x628; 0x62e]); (0xfc08, 0xfc08, Mapped, Some [0x628; 0x645]);
   (0xfc09, 0xfc09, Mapped, Some [0x628; 0x649]); (0xfc0a, 0xfc0a, Mapped, Some [0x628; 0x64a]); (0xfc0b, 0xfc0b, Mapped, Some [0x62a; 0x62c]);
   (0xfc0c, 0xfc0c, Mapped, Some [0x62a; 0x62d]); (0xfc0d, 0xfc0d, Mapped, Some [0x62a; 0x62e]); (0xfc0e, 0xfc0e, Mapped, Some [0x62a; 0x645]);
   (0xfc0f, 0xfc0f, Mapped, Some [0x62a; 0x649]); (0xfc10, 0xfc10, Mapped, Some [0x62a; 0x64a]); (0xfc11, 0xfc11, Mapped, Some [0x62b; 0x62c]);
   (0xfc12, 0xfc12, Mapped, Some [0x62b; 0x645]); (0xfc13, 0xfc13, Mapped, Some [0x62b; 0x649]); (0xfc14, 0xfc14, Mapped, Some [0x62b; 0x64a]);
   (0xfc15, 0xfc15, Mapped, Some [0x62c; 0x62d]); (0xfc16, 0xfc16, Mapped, Some [0x62c; 0x645]); (0xfc17, 0xfc17, Mapped, Some [0x62d; 0x62c]);
   (0xfc18, 0xfc18, Mapped, Some [0x62d; 0x645]); (0xfc19, 0xfc19, Mapped, Some [0x62e; 0x62c]); (0xfc1a, 0xfc1a, Mapped, Some [0x62e; 0x62d]);
   (0xfc1b, 0xfc1b, Mapped, Some [0x62e; 0x645]); (0xfc1c, 0xfc1c, Mapped, Some [0x633; 0x62c]); (0xfc1d, 0xfc1d, Mapped, Some [0x633; 0x62d]);
   (0xfc1e, 0xfc1e, Mapped, Some [0x633; 0x62e]); (0xfc1f, 0xfc1f, Mapped, Some [0x633; 0x645]); (0xfc20, 0xfc20, Mapped, Some [0x635; 0x62d]);
   (0xfc21, 0xfc21, Mapped, Some [0x635; 0x645]); (0xfc22, 0xfc22, Mapped, Some [0x636; 0x62c]); (0xfc23, 0xfc23, Mapped, Some [0x636; 0x62d]);
   (0xfc24, 0xfc24, Mapped, Some [0x636; 0x62e]); (0xfc25, 0xfc25, Mapped, Some [0x636; 0x645]); (0xfc26, 0xfc26, Mapped, Some [0x637; 0x62d]);
   (0xfc27, 0xfc27, Mapped, Some [0x637; 0x645]); (0xfc28, 0xfc28, Mapped, Some [0x638; 0x645]); (0xfc29, 0xfc29, Mapped, Some [0x639; 0x62c]);
   (0xfc2a, 0xfc2a, Mapped, Some [0x639; 0x645]); (0xfc2b, 0xfc2b, Mapped, Some [0x63a; 0x62c]); (0xfc2c, 0xfc2c, Mapped, Some [0x63a; 0x645]);
   (0xfc2d, 0xfc2d, Mapped, Some [0x641; 0x62c]); (0xfc2e, 0xfc2e, Mapped, Some [0x641; 0x62d]); (0xfc2f, 0xfc2f, Mapped, Some [0x641; 0x62e]);
   (0xfc30, 0xfc30, Mapped, Some [0x641; 0x645]); (0xfc31, 0xfc31, Mapped, Some [0x641; 0x649]); (0xfc32, 0xfc32, Mapped, Some [0x641; 0x64a]);
   (0xfc33, 0xfc33, Mapped, Some [0x642; 0x62d]); (0xfc34, 0xfc34, Mapped, Some [0x642; 0x645]); (0xfc35, 0xfc35, Mapped, Some [0x642; 0x649]);
   (0xfc36, 0xfc36, Mapped, Some [0x642; 0x64a]); (0xfc37, 0xfc37, Mapped, Some [0x643; 0x627]); (0xfc38, 0xfc38, Mapped, Some [0x643; 0x62c]);
   (0xfc39, 0xfc39, Mapped, Some [0x643; 0x62d]); (0xfc3a, 0xfc3a, Mapped, Some [0x643; 0x62e]); (0xfc3b, 0xfc3b, Mapped, Some [0x643; 0x644]);
   (0xfc3c, 0xfc3c, Mapped, Some [0x643; 0x645]); (0xfc3d, 0xfc3d, Mapped, Some [0x643; 0x649]); (0xfc3e, 0xfc3e, Mapped, Some [0x643; 0x64a]);
   (0xfc3f, 0xfc3f, Mapped, Some [0x644; 0x62c]); (0xfc40, 0xfc40, Mapped, Some [0x644; 0x62d]); (0xfc41, 0xfc41, Mapped, Some [0x644; 0x62e]);
   (0xfc42, 0xfc42, Mapped, Some [0x644; 0x645]); (0xfc43, 0xfc43, Mapped, Some [0x644; 0x649]); (0xfc44, 0xfc44, Mapped, Some [0x644; 0x64a]);
   (0xfc45, 0xfc45, Mapped, Some [0x645; 0x62c]); (0xfc46, 0xfc46, Mapped, Some [0x645; 0x62d]); (0xfc47, 0xfc47, Mapped, Some [0x645; 0x62e]);
   (0xfc48, 0xfc48, Mapped, Some [0x645; 0x645]); (0xfc49, 0xfc49, Mapped, Some [0x645; 0x649]); (0xfc4a, 0xfc4a, Mapped, Some [0x645; 0x64a]);
   (0xfc4b, 0xfc4b, Mapped, Some [0x646; 0x62c]); (0xfc4c, 0xfc4c, Mapped, Some [0x646; 0x62d]); (0xfc4d, 0xfc4d, Mapped, Some [0x646; 0x62e]);
   (0xfc4e, 0xfc4e, Mapped, Some [0x646; 0x645]); (0xfc4f, 0xfc4f, Mapped, Some [0x646; 0x649]); (0xfc50, 0xfc50, Mapped, Some [0x646; 0x64a]);
   (0xfc51, 0xfc51, Mapped, Some [0x647; 0x62c]); (0xfc52, 0xfc52, Mapped, Some [0x647; 0x645]); (0xfc53, 0xfc53, Mapped, Some [0x647; 0x649]);
   (0xfc54, 0xfc54, Mapped, Some [0x647; 0x64a]); (0xfc55, 0xfc55, Mapped, Some [0x64a; 0x62c]); (0xfc56, 0xfc56, Mapped, Some [0x64a; 0x62d]);
   (0xfc57, 0xfc57, Mapped, Some [0x64a; 0x62e]); (0xfc58, 0xfc58, Mapped, Some [0x64a; 0x645]); (0xfc59, 0xfc59, Mapped, Some [0x64a; 0x649]);
   (0xfc5a, 0xfc5a, Mapped, Some [0x64a; 0x64a]); (0xfc5b, 0xfc5b, Mapped, Some [0x630; 0x670]); (0xfc5c, 0xfc5c, Mapped, Some [0x631; 0x670]);
   (0xfc5d, 0xfc5d, Mapped, Some [0x649; 0x670]); (0xfc5e, 0xfc5e, Std3_mapped, Some [0x20; 0x64c; 0x651]); (0xfc5f, 0xfc5f, Std3_mapped, Some [0x20; 0x64d; 0x651]);
   (0xfc60, 0xfc60, Std3_mapped, Some [0x20; 0x64e; 0x651]); (0xfc61, 0xfc61, Std3_mapped, Some [0x20; 0x64f; 0x651]); (0xfc62, 0xfc62, Std3_mapped, Some [0x20; 0x650; 0x651]);
   (0xfc63, 0xfc63, Std3_mapped, Some [0x20; 0x651; 0x670]); (0xfc64, 0xfc64, Mapped, Some [0x626; 0x631]); (0xfc65, 0xfc65, Mapped, Some [0x626; 0x632]);
   (0xfc66, 0xfc66, Mapped, Some [0x626; 0x645]); (0xfc67, 0xfc67, Mapped, Some [0x626; 0x646]); (0xfc68, 0xfc68, Mapped, Some [0x626; 0x649]);
   (0xfc69, 0xfc69, Mapped, Some [0x626; 0x64a]); (0xfc6a, 0xfc6a, Mapped, Some [0x628; 0x631]); (0xfc6b, 0xfc6b, Mapped, Some [0x628; 0x632]);
   (0xfc6c, 0xfc6c, Mapped, Some [0x628; 0x645]); (0xfc6d, 0xfc6d, Mapped, Some [0x628; 0x646]); (0xfc6e, 0xfc6e, Mapped, Some [0x628; 0x649]);
   (0xfc6f, 0xfc6f, Mapped, Some [0x628; 0x64a]); (0xfc70, 0xfc70, Mapped, Some [0x62a; 0x631]); (0xfc71, 0xfc71, Mapped, Some [0x62a; 0x632]);
   (0xfc72, 0xfc72, Mapped, Some [0x62a; 0x645]); (0xfc73, 0xfc73, Mapped, Some [0x62a; 0x646]); (0xfc74, 0xfc74, Mapped, Some [0x62a; 0x649]);
   (0xfc75, 0xfc75, Mapped, Some [0x62a; 0x64a]); (0xfc76, 0xfc76, Mapped, Some [0x62b; 0x631]); (0xfc77, 0xfc77, Mapped, Some [0x62b; 0x632]);
   (0xfc78, 0xfc78, Mapped, Some [0x62b; 0x645]); (0xfc79, 0xfc79, Mapped, Some [0x62b; 0x646]); (0xfc7a, 0xfc7a, Mapped, Some [0x62b; 0x649]);
   (0xfc7b, 0xfc7b, Mapped, Some [0x62b; 0x64a]); (0xfc7c, 0xfc7c, Mapped, Some [0x641; 0x649]); (0xfc7d, 0xfc7d, Mapped, Some [0x641; 0x64a]);
   (0xfc7e, 0xfc7e, Mapped, Some [0x642; 0x649]); (0xfc7f, 0xfc7f, Mapped, Some [0x642; 0x64a]); (0xfc80, 0xfc80, Mapped, Some [0x643; 0x627]);
   (0xfc81, 0xfc81, Mapped, Some [0x643; 0x644]); (0xfc82, 0xfc82, Mapped, Some [0x643; 0x645]); (0xfc83, 0xfc83, Mapped, Some [0x643; 0x649]);
   (0xfc84, 0xfc84, Mapped, Some [0x643; 0x64a]); (0xfc85, 0xfc85, Mapped, Some [0x644; 0x645]); (0xfc86, 0xfc86, Mapped, Some [0x644; 0x649]);
   (0xfc87, 0xfc87, Mapped, Some [0x644; 0x64a]); (0xfc88, 0xfc88, Mapped, Some [0x645; 0x627]); (0xfc89, 0xfc89, Mapped, Some [0x645; 0x645]);
   (0xfc8a, 0xfc8a, Mapped, Some [0x646; 0x631]); (0xfc8b, 0xfc8b, Mapped, Some [0x646; 0x632]); (0xfc8c, 0xfc8c, Mapped, Some [0x646; 0x645]);
   (0xfc8d, 0xfc8d, Mapped, Some [0x646; 0x646]); (0xfc8e, 0xfc8e, Mapped, Some [0x646; 0x649]); (0xfc8f, 0xfc8f, Mapped, Some [0x646; 0x64a]);
   (0xfc90, 0xfc90, Mapped, Some [0x649; 0x670]); (0xfc91, 0xfc91, Mapped, Some [0x64a; 0x631]); (0xfc92, 0xfc92, Mapped, Some [0x64a; 0x632]);
   (0xfc93, 0xfc93, Mapped, Some [0x64a; 0x645]); (0xfc94, 0xfc94, Mapped, Some [0x64a; 0x646]); (0xfc95, 0xfc95, Mapped, Some [0x64a; 0x649]);
   (0xfc96, 0xfc96, Mapped, Some [0x64a; 0x64a]); (0xfc97, 0xfc97, Mapped, Some [0x626; 0x62c]); (0xfc98, 0xfc98, Mapped, Some [0x626; 0x62d]);
   (0xfc99, 0xfc99, Mapped, Some [0x626; 0x62e]); (0xfc9a, 0xfc9a, Mapped, Some [0x626; 0x645]); (0xfc9b, 0xfc9b, Mapped, Some [0x626; 0x647]);
   (0xfc9c, 0xfc9c, Mapped, Some [0x628; 0x62c]); (0xfc9d, 0xfc9d, Mapped, Some [0x628; 0x62d]); (0xfc9e, 0xfc9e, Mapped, Some [0x628; 0x62e]);
   (0xfc9f, 0xfc9f, Mapped, Some [0x628; 0x645]); (0xfca0, 0xfca0, Mapped, Some [0x628; 0x647]); (0xfca1, 0xfca1, Mapped, Some [0x62a; 0x62c]);
   (0xfca2, 0xfca2, Mapped, Some [0x62a; 0x62d]); (0xfca3, 0xfca3, Mapped, Some [0x62a; 0x62e]); (0xfca4, 0xfca4, Mapped, Some [0x62a; 0x645]);
   (0xfca5, 0xfca5, Mapped, Some [0x62a; 0x647]); (0xfca6, 0xfca6, Mapped, Some [0x62b; 0x645]); (0xfca7, 0xfca7, Mapped, Some [0x62c; 0x62d]);
   (0xfca8, 0xfca8, Mapped, Some [0x62c; 0x645]); (0xfca9, 0xfca9, Mapped, Some [0x62d; 0x62c]); (0xfcaa, 0xfcaa, Mapped, Some [0x62d; 0x645]);
   (0xfcab, 0xfcab, Mapped, Some [0x62e; 0x62c]); (0xfcac, 0xfcac, Mapped, Some [0x62e; 0x645]); (0xfcad, 0xfcad, Mapped, Some [0x633; 0x62c]);
   (0xfcae, 0xfcae, Mapped, Some [0x633; 0x62d]); (0xfcaf, 0xfcaf, Mapped, Some [0x633; 0x62e]); (0xfcb0, 0xfcb0, Mapped, Some [0x633; 0x645]);
   (0xfcb1, 0xfcb1, Mapped, Some [0x635; 0x62d]); (0xfcb2, 0xfcb2, Mapped, Some [0x635; 0x62e]); (0xfcb3, 0xfcb3, Mapped, Some [0x635; 0x645]);
   (0xfcb4, 0xfcb4, Mapped, Some [0x636; 0x62c]); (0xfcb5, 0xfcb5, Mapped, Some [0x636; 0x62d]); (0xfcb6, 0xfcb6, Mapped, Some [0x636; 0x62e]);
   (0xfcb7, 0xfcb7, Mapped, Some [0x636; 0x645]); (0xfcb8, 0xfcb8, Mapped, Some [0x637; 0x62d]); (0xfcb9, 0xfcb9, Mapped, Some [0x638; 0x645]);
   (0xfcba, 0xfcba, Mapped, Some [0x639; 0x62c]); (0xfcbb, 0xfcbb, Mapped, Some [0x639; 0x645]); (0xfcbc, 0xfcbc, Mapped, Some [0x63a; 0x62c]);
   (0xfcbd, 0xfcbd, Mapped, Some [0x63a; 0x645]); (0xfcbe, 0xfcbe, Mapped, Some [0x641; 0x62c]); (0xfcbf, 0xfcbf, Mapped, Some [0x641; 0x62d]);
   (0xfcc0, 0xfcc0, Mapped, Some [0x641; 0x62e]); (0xfcc1, 0xfcc1, Mapped, Some [0x641; 0x645]); (0xfcc2, 0xfcc2, Mapped, Some [0x642; 0x62d]);
   (0xfcc3, 0xfcc3, Mapped, Some [0x642; 0x645]); (0xfcc4, 0xfcc4, Mapped, Some [0x643; 0x62c]); (0xfcc5, 0xfcc5, Mapped, Some [0x643; 0x62d]);
   (0xfcc6, 0xfcc6, Mapped, Some [0x643; 0x62e]); (0xfcc7, 0xfcc7, Mapped, Some [0x643; 0x644]); (0xfcc8, 0xfcc8, Mapped, Some [0x643; 0x645]);
   (0xfcc9, 0xfcc9, Mapped, Some [0x644; 0x62c]); (0xfcca, 0xfcca, Mapped, Some [0x644; 0x62d]); (0xfccb, 0xfccb, Mapped, Some [0x644; 0x62e]);
   (0xfccc, 0xfccc, Mapped, Some [0x644; 0x645]); (0xfccd, 0xfccd, Mapped, Some [0x644; 0x647]); (0xfcce, 0xfcce, Mapped, Some [0x645; 0x62c]);
   (0xfccf, 0xfccf, Mapped, Some [0x645; 0x62d]); (0xfcd0, 0xfcd0, Mapped, Some [0x645; 0x62e]); (0xfcd1, 0xfcd1, Mapped, Some [0x645; 0x645]);
   (0xfcd2, 0xfcd2, Mapped, Some [0x646; 0x62c]); (0xfcd3, 0xfcd3, Mapped, Some [0x646; 0x62d]); (0xfcd4, 0xfcd4, Mapped, Some [0x646; 0x62e]);
   (0xfcd5, 0xfcd5, Mapped, Some [0x646; 0x645]); (0xfcd6, 0xfcd6, Mapped, Some [0x646; 0x647]); (0xfcd7, 0xfcd7, Mapped, Some [0x647; 0x62c]);
   (0xfcd8, 0xfcd8, Mapped, Some [0x647; 0x645]); (0xfcd9, 0xfcd9, Mapped, Some [0x647; 0x670]); (0xfcda, 0xfcda, Mapped, Some [0x64a; 0x62c]);
   (0xfcdb, 0xfcdb, Mapped, Some [0x64a; 0x62d]); (0xfcdc, 0xfcdc, Mapped, Some [0x64a; 0x62e]); (0xfcdd, 0xfcdd, Mapped, Some [0x64a; 0x645]);
   (0xfcde, 0xfcde, Mapped, Some [0x64a; 0x647]); (0xfcdf, 0xfcdf, Mapped, Some [0x626; 0x645]); (0xfce0, 0xfce0, Mapped, Some [0x626; 0x647]);
   (0xfce1, 0xfce1, Mapped, Some [0x628; 0x645]); (0xfce2, 0xfce2, Mapped, Some [0x628; 0x647]); (0xfce3, 0xfce3, Mapped, Some [0x62a; 0x645]);
   (0xfce4, 0xfce4, Mapped, Some [0x62a; 0x647]); (0xfce5, 0xfce5, Mapped, Some [0x62b; 0x645]); (0xfce6, 0xfce6, Mapped, Some [0x62b; 0x647]);
   (0xfce7, 0xfce7, Mapped, Some [0x633; 0x645]); (0xfce8, 0xfce8, Mapped, Some [0x633; 0x647]); (0xfce9, 0xfce9, Mapped, Some [0x634; 0x645]);
   (0xfcea, 0xfcea, Mapped, Some [0x634; 0x647]); (0xfceb, 0xfceb, Mapped, Some [0x643; 0x644]); (0xfcec, 0xfcec, Mapped, Some [0x643; 0x645]);
   (0xfced, 0xfced, Mapped, Some [0x644; 0x645]); (0xfcee, 0xfcee, Mapped, Some [0x646; 0x645]); (0xfcef, 0xfcef, Mapped, Some [0x646; 0x647]);
   (0xfcf0, 0xfcf0, Mapped, Some [0x64a; 0x645]); (0xfcf1, 0xfcf1, Mapped, Some [0x64a; 0x647]); (0xfcf2, 0xfcf2, Mapped, Some [0x640; 0x64e; 0x651]);
   (0xfcf3, 0xfcf3, Mapped, Some [0x640; 0x64f; 0x651]); (0xfcf4, 0xfcf4, Mapped, Some [0x640; 0x650; 0x651]); (0xfcf5, 0xfcf5, Mapped, Some [0x637; 0x649]);
   (0xfcf6, 0xfcf6, Mapped, Some [0x637; 0x64a]); (0xfcf7, 0xfcf7, Mapped, Some [0x639; 0x649]); (0xfcf8, 0xfcf8, Mapped, Some [0x639; 0x64a]);
   (0xfcf9, 0xfcf9, Mapped, Some [0x63a; 0x649]); (0xfcfa, 0xfcfa, Mapped, Some [0x63a; 0x64a]); (0xfcfb, 0xfcfb, Mapped, Some [0x633; 0x649]);
   (0xfcfc, 0xfcfc, Mapped, Some [0x633; 0x64a]); (0xfcfd, 0xfcfd, Mapped, Some [0x634; 0x649]); (0xfcfe, 0xfcfe, Mapped, Some [0x634; 0x64a]);
   (0xfcff, 0xfcff, Mapped, Some [0x62d; 0x649]); (0xfd00, 0xfd00, Mapped, Some [0x62d; 0x64a]); (0xfd01, 0xfd01, Mapped, Some [0x62c; 0x649]);
   (0xfd02, 0xfd02, Mapped, Some [0x62c; 0x64a]); (0xfd03, 0xfd03, Mapped, Some [0x62e; 0x649]); (0xfd04, 0xfd04, Mapped, Some [0x62e; 0x64a]);
   (0xfd05, 0xfd05, Mapped, Some [0x635; 0x649]); (0xfd06, 0xfd06, Mapped, Some [0x635; 0x64a]); (0xfd07, 0xfd07, Mapped, Some [0x636; 0x649]);
   (0xfd08, 0xfd08, Mapped, Some [0x636; 0x64a]); (0xfd09, 0xfd09, Mapped, Some [0x634; 0x62c]); (0xfd0a, 0xfd0a, Mapped, Some [0x634; 0x62d]);
   (0xfd0b, 0xfd0b, Mapped, Some [0x634; 0x62e]); (0xfd0c, 0xfd0c, Mapped, Some [0x634; 0x645]); (0xfd0d, 0xfd0d, Mapped, Some [0x634; 0x631]);
   (0xfd0e, 0xfd0e, Mapped, Some [0x633; 0x631]); (0xfd0f, 0xfd0f, Mapped, Some [0x635; 0x631]); (0xfd10, 0xfd10, Mapped, Some [0x636; 0x631]);
   (0xfd11, 0xfd11, Mapped, Some [0x637; 0x649]); (0xfd12, 0xfd12, Mapped, Some [0x637; 0x64a]); (0xfd13, 0xfd13, Mapped, Some [0x639; 0x649]);
   (0xfd14, 0xfd14, Mapped, Some [0x639; 0x64a]); (0xfd15, 0xfd15, Mapped, Some [0x63a; 0x649]); (0xfd16, 0xfd16, Mapped, Some [0x63a; 0x64a]);
   (0xfd17, 0xfd17, Mapped, Some [0x633; 0x649]); (0xfd18, 0xfd18, Mapped, Some [0x633; 0x64a]); (0xfd19, 0xfd19, Mapped, Some [0x634; 0x649]);
   (0xfd1a, 0xfd1a, Mapped, Some [0x634; 0x64a]); (0xfd1b, 0xfd1b, Mapped, Some [0x62d; 0x649]); (0xfd1c, 0xfd1c, Mapped, Some [0x62d; 0x64a]);
   (0xfd1d, 0xfd1d, Mapped, Some [0x62c; 0x649]); (0xfd1e, 0xfd1e, Mapped, Some [0x62c; 0x64a]); (0xfd1f, 0xfd1f, Mapped, Some [0x62e; 0x649]);
   (0xfd20, 0xfd20, Mapped, Some [0x62e; 0x64a]); (0xfd21, 0xfd21, Mapped, Some [0x635; 0x649]); (0xfd22, 0xfd22, Mapped, Some [0x635; 0x64a]);
   (0xfd23, 0xfd23, Mapped, Some [0x636; 0x649]); (0xfd24, 0xfd24, Mapped, Some [0x636; 0x64a]); (0xfd25, 0xfd25, Mapped, Some [0x634; 0x62c]);
   (0xfd26, 0xfd26, Mapped, Some [0x634; 0x62d]); (0xfd27, 0xfd27, Mapped, Some [0x634; 0x62e]); (0xfd28, 0xfd28, Mapped, Some [0x634; 0x645]);
   (0xfd29, 0xfd29, Mapped, Some [0x634; 0x631]); (0xfd2a, 0xfd2a, Mapped, Some [0x633; 0x631]); (0xfd2b, 0xfd2b, Mapped, Some [0x635; 0x631]);
   (0xfd2c, 0xfd2c, Mapped, Some [0x636; 0x631]); (0xfd2d, 0xfd2d, Mapped, Some [0x634; 0x62c]); (0xfd2e, 0xfd2e, Mapped, Some [0x634; 0x62d]);
   (0xfd2f, 0xfd2f, Mapped, Some [0x634; 0x62e]); (0xfd30, 0xfd30, Mapped, Some [0x634; 0x645]); (0xfd31, 0xfd31, Mapped, Some [0x633; 0x647]);
   (0xfd32, 0xfd32, Mapped, Some [0x634; 0x647]); (0xfd33, 0xfd33, Mapped, Some [0x637; 0x645]); (0xfd34, 0xfd34, Mapped, Some [0x633; 0x62c]);
   (0xfd35, 0xfd35, Mapped, Some [0x633; 0x62d]); (0xfd36, 0xfd36, Mapped, Some [0x633; 0x62e]); (0xfd37, 0xfd37, Mapped, Some [0x634; 0x62c]);
   (0xfd38, 0xfd38, Mapped, Some [0x634; 0x62d]); (0xfd39, 0xfd39, Mapped, Some [0x634; 0x62e]); (0xfd3a, 0xfd3a, Mapped, Some [0x637; 0x645]);
   (0xfd3b, 0xfd3b, Mapped, Some [0x638; 0x645]); (0xfd3c, 0xfd3d, Mapped, Some [0x627; 0x64b]); (0xfd3e, 0xfd3f, Valid, Some []);
   (0xfd40, 0xfd4f, Disallowed, None); (0xfd50, 0xfd50, Mapped, Some [0x62a; 0x62c; 0x645]); (0xfd51, 0xfd52, Mapped, Some [0x62a; 0x62d; 0x62c]);
   (0xfd53, 0xfd53, Mapped, Some [0x62a; 0x62d; 0x645]); (0xfd54, 0xfd54, Mapped, Some [0x62a; 0x62e; 0x645]); (0xfd55, 0xfd55, Mapped, Some [0x62a; 0x645; 0x62c]);
   (0xfd56, 0xfd56, Mapped, Some [0x62a; 0x645; 0x62d]); (0xfd57, 0xfd57, Mapped, Some [0x62a; 0x645; 0x62e]); (0xfd58, 0xfd59, Mapped, Some [0x62c; 0x645; 0x62d]);
   (0xfd5a, 0xfd5a, Mapped, Some [0x62d; 0x645; 0x64a]); (0xfd5b, 0xfd5b, Mapped, Some [0x62d; 0x645; 0x649]); (0xfd5c, 0xfd5c, Mapped, Some [0x633; 0x62d; 0x62c]);
   (0xfd5d, 0xfd5d, Mapped, Some [0x633; 0x62c; 0x62d]); (0xfd5e, 0xfd5e, Mapped, Some [0x633; 0x62c; 0x649]); (0xfd5f, 0xfd60, Mapped, Some [0x633; 0x645; 0x62d]);
   (0xfd61, 0xfd61, Mapped, Some [0x633; 0x645; 0x62c]); (0xfd62, 0xfd63, Mapped, Some [0x633; 0x645; 0x645]); (0xfd64, 0xfd65, Mapped, Some [0x635; 0x62d; 0x62d]);
   (0xfd66, 0xfd66, Mapped, Some [0x635; 0x645; 0x645]); (0xfd67, 0xfd68, Mapped, Some [0x634; 0x62d; 0x645]); (0xfd69, 0xfd69, Mapped, Some [0x634; 0x62c; 0x64a]);
   (0xfd6a, 0xfd6b, Mapped, Some [0x634; 0x645; 0x62e]); (0xfd6c, 0xfd6d, Mapped, Some [0x634; 0x645; 0x645]); (0xfd6e, 0xfd6e, Mapped, Some [0x636; 0x62d; 0x649]);
   (0xfd6f, 0xfd70, Mapped, Some [0x636; 0x62e; 0x645]); (0xfd71, 0xfd72, Mapped, Some [0x637; 0x645; 0x62d]); (0xfd73, 0xfd73, Mapped, Some [0x637; 0x645; 0x645]);
   (0xfd74, 0xfd74, Mapped, Some [0x637; 0x645; 0x64a]); (0xfd75, 0xfd75, Mapped, Some [0x639; 0x62c; 0x645]); (0xfd76, 0xfd77, Mapped, Some [0x639; 0x645; 0x645]);
   (0xfd78, 0xfd78, Mapped, Some [0x639; 0x645; 0x649]); (0xfd79, 0xfd79, Mapped, Some [0x63a; 0x645; 0x645]); (0xfd7a, 0xfd7a, Mapped, Some [0x63a; 0x645; 0x64a]);
   (0xfd7b, 0xfd7b, Mapped, Some [0x63a; 0x645; 0x649]); (0xfd7c, 0xfd7d, Mapped, Some [0x641; 0x62e; 0x645]); (0xfd7e, 0xfd7e, Mapped, Some [0x642; 0x645; 0x62d]);
   (0xfd7f, 0xfd7f, Mapped, Some [0x642; 0x645; 0x645]); (0xfd80, 0xfd80, Mapped, Some [0x644; 0x62d; 0x645]); (0xfd81, 0xfd81, Mapped, Some [0x644; 0x62d; 0x64a]);
   (0xfd82, 0xfd82, Mapped, Some [0x644; 0x62d; 0x649]); (0xfd83, 0xfd84, Mapped, Some [0x644; 0x62c; 0x62c]); (0xfd85, 0xfd86, Mapped, Some [0x644; 0x62e; 0x645]);
   (0xfd87, 0xfd88, Mapped, Some [0x644; 0x645; 0x62d]); (0xfd89, 0xfd89, Mapped, Some [0x645; 0x62d; 0x62c]); (0xfd8a, 0xfd8a, Mapped, Some [0x645; 0x62d; 0x645]);
   (0xfd8b, 0xfd8b, Mapped, Some [0x645; 0x62d; 0x64a]); (0xfd8c, 0xfd8c, Mapped, Some [0x645; 0x62c; 0x62d]); (0xfd8d, 0xfd8d, Mapped, Some [0x645; 0x62c; 0x645]);
   (0xfd8e, 0xfd8e, Mapped, Some [0x645; 0x62e; 0x62c]); (0xfd8f, 0xfd8f, Mapped, Some [0x645; 0x62e; 0x645]); (0xfd90, 0xfd91, Disallowed, None);
   (0xfd92, 0xfd92, Mapped, Some [0x645; 0x62c; 0x62e]); (0xfd93, 0xfd93, Mapped, Some [0x647; 0x645; 0x62c]); (0xfd94, 0xfd94, Mapped, Some [0x647; 0x645; 0x645]);
   (0xfd95, 0xfd95, Mapped, Some [0x646; 0x62d; 0x645]); (0xfd96, 0xfd96, Mapped, Some [0x646; 0x62d; 0x649]); (0xfd97, 0xfd98, Mapped, Some [0x646; 0x62c; 0x645]);
   (0xfd99, 0xfd99, Mapped, Some [0x646; 0x62c; 0x649]); (0xfd9a, 0xfd9a, Mapped, Some [0x646; 0x645; 0x64a]); (0xfd9b, 0xfd9b, Mapped, Some [0x646; 0x645; 0x649]);
   (0xfd9c, 0xfd9d, Mapped, Some [0x64a; 0x645; 0x645]); (0xfd9e, 0xfd9e, Mapped, Some [0x628; 0x62e; 0x64a]); (0xfd9f, 0xfd9f, Mapped, Some [0x62a; 0x62c; 0x64a]);
   (0xfda0, 0xfda0, Mapped, Some [0x62a; 0x62c; 0x649]); (0xfda1, 0xfda1, Mapped, Some [0x62a; 0x62e; 0x64a]); (0xfda2, 0xfda2, Mapped, Some [0x62a; 0x62e; 0x649]);
   (0xfda3, 0xfda3, Mapped, Some [0x62a; 0x645; 0x64a]); (0xfda4, 0xfda4, Mapped, Some [0x62a; 0x645; 0x649]); (0xfda5, 0xfda5, Mapped, Some [0x62c; 0x645; 0x64a]);
   (0xfda6, 0xfda6, Mapped, Some [0x62c; 0x62d; 0x649]); (0xfda7, 0xfda7, Mapped, Some [0x62c; 0x645; 0x649]); (0xfda8, 0xfda8, Mapped, Some [0x633; 0x62e; 0x649]);
   (0xfda9, 0xfda9, Mapped, Some [0x635; 0x62d; 0x64a]); (0xfdaa, 0xfdaa, Mapped, Some [0x634; 0x62d; 0x64a]); (0xfdab, 0xfdab, Mapped, Some [0x636; 0x62d; 0x64a]);
   (0xfdac, 0xfdac, Mapped, Some [0x644; 0x62c; 0x64a]); (0xfdad, 0xfdad, Mapped, Some [0x644; 0x645; 0x64a]); (0xfdae, 0xfdae, Mapped, Some [0x64a; 0x62d; 0x64a]);
   (0xfdaf, 0xfdaf, Mapped, Some [0x64a; 0x62c; 0x64a]); (0xfdb0, 0xfdb0, Mapped, Some [0x64a; 0x645; 0x64a]); (0xfdb1, 0xfdb1, Mapped, Some [0x645; 0x645; 0x64a]);
   (0xfdb2, 0xfdb2, Mapped, Some [0x642; 0x645; 0x64a]); (0xfdb3, 0xfdb3, Mapped, Some [0x646; 0x62d; 0x64a]); (0xfdb4, 0xfdb4, Mapped, Some [0x642; 0x645; 0x62d]);
   (0xfdb5, 0xfdb5, Mapped, Some [0x644; 0x62d; 0x645]); (0xfdb6, 0xfdb6, Mapped, Some [0x639; 0x645; 0x64a]); (0xfdb7, 0xfdb7, Mapped, Some [0x643; 0x645; 0x64a]);
   (0xfdb8, 0xfdb8, Mapped, Some [0x646; 0x62c; 0x62d]); (0xfdb9, 0xfdb9, Mapped, Some [0x645; 0x62e; 0x64a]); (0xfdba, 0xfdba, Mapped, Some [0x644; 0x62c; 0x645]);
   (0xfdbb, 0xfdbb, Mapped, Some [0x643; 0x645; 0x645]); (0xfdbc, 0xfdbc, Mapped, Some [0x644; 0x62c; 0x645]); (0xfdbd, 0xfdbd, Mapped, Some [0x646; 0x62c; 0x62d]);
   (0xfdbe, 0xfdbe, Mapped, Some [0x62c; 0x62d; 0x64a]); (0xfdbf, 0xfdbf, Mapped, Some [0x62d; 0x62c; 0x64a]); (0xfdc0, 0xfdc0, Mapped, Some [0x645; 0x62c; 0x64a]);
   (0xfdc1, 0xfdc1, Mapped, Some [0x641; 0x645; 0x64a]); (0xfdc2, 0xfdc2, Mapped, Some [0x628; 0x62d; 0x64a]); (0xfdc3, 0xfdc3, Mapped, Some [0x643; 0x645; 0x645]);
   (0xfdc4, 0xfdc4, Mapped, Some [0x639; 0x62c; 0x645]); (0xfdc5, 0xfdc5, Mapped, Some [0x635; 0x645; 0x645]); (0xfdc6, 0xfdc6, Mapped, Some [0x633; 0x62e; 0x64a]);
   (0xfdc7, 0xfdc7, Mapped, Some [0x646; 0x62c; 0x64a]); (0xfdc8, 0xfdcf, Disallowed, None); (0xfdd0, 0xfdef, Disallowed, None);
   (0xfdf0, 0xfdf0, Mapped, Some [0x635; 0x644; 0x6d2]); (0xfdf1, 0xfdf1, Mapped, Some [0x642; 0x644; 0x6d2]); (0xfdf2, 0xfdf2, Mapped, Some [0x627; 0x644; 0x644; 0x647]);
   (0xfdf3, 0xfdf3, Mapped, Some [0x627; 0x643; 0x628; 0x631]); (0xfdf4, 0xfdf4, Mapped, Some [0x645; 0x62d; 0x645; 0x62f]); (0xfdf5, 0xfdf5, Mapped, Some [0x635; 0x644; 0x639; 0x645]);
   (0xfdf6, 0xfdf6, Mapped, Some [0x631; 0x633; 0x648; 0x644]); (0xfdf7, 0xfdf7, Mapped, Some [0x639; 0x644; 0x64a; 0x647]); (0xfdf8, 0xfdf8, Mapped, Some [0x648; 0x633; 0x644; 0x645]);
   (0xfdf9, 0xfdf9, Mapped, Some [0x635; 0x644; 0x649]); (0xfdfa, 0xfdfa, Std3_mapped, Some [0x635; 0x644; 0x649; 0x20; 0x627; 0x644; 0x644; 0x647; 0x20; 0x639; 0x644; 0x64a; 0x647; 0x20; 0x648; 0x633; 0x644; 0x645]); (0xfdfb, 0xfdfb, Std3_mapped, Some [0x62c; 0x644; 0x20; 0x62c; 0x644; 0x627; 0x644; 0x647]);
   (0xfdfc, 0xfdfc, Mapped, Some [0x631; 0x6cc; 0x627; 0x644]); (0xfdfd, 0xfdfd, Valid, Some []); (0xfdfe, 0xfdff, Disallowed, None);
   (0xfe00, 0xfe0f, Ignored, None); (0xfe10, 0xfe10, Std3_mapped, Some [0x2c]); (0xfe11, 0xfe11, Mapped, Some [0x3001]);
   (0xfe12, 0xfe12, Disallowed, None); (0xfe13, 0xfe13, Std3_mapped, Some [0x3a]); (0xfe14, 0xfe14, Std3_mapped, Some [0x3b]);
   (0xfe15, 0xfe15, Std3_mapped, Some [0x21]); (0xfe16, 0xfe16, Std3_mapped, Some [0x3f]); (0xfe17, 0xfe17, Mapped, Some [0x3016]);
   (0xfe18, 0xfe18, Mapped, Some [0x3017]); (0xfe19, 0xfe19, Disallowed, None); (0xfe1a, 0xfe1f, Disallowed, None);
   (0xfe20, 0xfe23, Valid, None); (0xfe24, 0xfe26, Valid, None); (0xfe27, 0xfe2d, Valid, None);
   (0xfe2e, 0xfe2f, Valid, None); (0xfe30, 0xfe30, Disallowed, None); (0xfe31, 0xfe31, Mapped, Some [0x2014]);
   (0xfe32, 0xfe32, Mapped, Some [0x2013]); (0xfe33, 0xfe34, Std3_mapped, Some [0x5f]); (0xfe35, 0xfe35, Std3_mapped, Some [0x28]);
   (0xfe36, 0xfe36, Std3_mapped, Some [0x29]); (0xfe37, 0xfe37, Std3_mapped, Some [0x7b]); (0xfe38, 0xfe38, Std3_mapped, Some [0x7d]);
   (0xfe39, 0xfe39, Mapped, Some [0x3014]); (0xfe3a, 0xfe3a, Mapped, Some [0x3015]); (0xfe3b, 0xfe3b, Mapped, Some [0x3010]);
   (0xfe3c, 0xfe3c, Mapped, Some [0x3011]); (0xfe3d, 0xfe3d, Mapped, Some [0x300a]); (0xfe3e, 0xfe3e, Mapped, Some [0x300b]);
   (0xfe3f, 0xfe3f, Mapped, Some [0x3008]); (0xfe40, 0xfe40, Mapped, Some [0x3009]); (0xfe41, 0xfe41, Mapped, Some [0x300c]);
   (0xfe42, 0xfe42, Mapped, Some [0x300d]); (0xfe43, 0xfe43, Mapped, Some [0x300e]); (0xfe44, 0xfe44, Mapped, Some [0x300f]);
   (0xfe45, 0xfe46, Valid, Some []); (0xfe47, 0xfe47, Std3_mapped, Some [0x5b]); (0xfe48, 0xfe48, Std3_mapped, Some [0x5d]);
   (0xfe49, 0xfe4c, Std3_mapped, Some [0x20; 0x305]); (0xfe4d, 0xfe4f, Std3_mapped, Some [0x5f]); (0xfe50, 0xfe50, Std3_mapped, Some [0x2c]);
   (0xfe51, 0xfe51, Mapped, Some [0x3001]); (0xfe52, 0xfe52, Disallowed, None); (0xfe53, 0xfe53, Disallowed, None);
   (0xfe54, 0xfe54, Std3_mapped, Some [0x3b]); (0xfe55, 0xfe55, Std3_mapped, Some [0x3a]); (0xfe56, 0xfe56, Std3_mapped, Some [0x3f]);
   (0xfe57, 0xfe57, Std3_mapped, Some [0x21]); (0xfe58, 0xfe58, Mapped, Some [0x2014]); (0xfe59, 0xfe59, Std3_mapped, Some [0x28]);
   (0xfe5a, 0xfe5a, Std3_mapped, Some [0x29]); (0xfe5b, 0xfe5b, Std3_mapped, Some [0x7b]); (0xfe5c, 0xfe5c, Std3_mapped, Some [0x7d]);
   (0xfe5d, 0xfe5d, Mapped, Some [0x3014]); (0xfe5e, 0xfe5e, Mapped, Some [0x3015]); (0xfe5f, 0xfe5f, Std3_mapped, Some [0x23]);
   (0xfe60, 0xfe60, Std3_mapped, Some [0x26]); (0xfe61, 0xfe61, Std3_mapped, Some [0x2a]); (0xfe62, 0xfe62, Std3_mapped, Some [0x2b]);
   (0xfe63, 0xfe63, Mapped, Some [0x2d]); (0xfe64, 0xfe64, Std3_mapped, Some [0x3c]); (0xfe65, 0xfe65, Std3_mapped, Some [0x3e]);
   (0xfe66, 0xfe66, Std3_mapped, Some [0x3d]); (0xfe67, 0xfe67, Disallowed, None); (0xfe68, 0xfe68, Std3_mapped, Some [0x5c]);
   (0xfe69, 0xfe69, Std3_mapped, Some [0x24]); (0xfe6a, 0xfe6a, Std3_mapped, Some [0x25]); (0xfe6b, 0xfe6b, Std3_mapped, Some [0x40]);
   (0xfe6c, 0xfe6f, Disallowed, None); (0xfe70, 0xfe70, Std3_mapped, Some [0x20; 0x64b]); (0xfe71, 0xfe71, Mapped, Some [0x640; 0x64b]);
   (0xfe72, 0xfe72, Std3_mapped, Some [0x20; 0x64c]); (0xfe73, 0xfe73, Valid, None); (0xfe74, 0xfe74, Std3_mapped, Some [0x20; 0x64d]);
   (0xfe75, 0xfe75, Disallowed, None); (0xfe76, 0xfe76, Std3_mapped, Some [0x20; 0x64e]); (0xfe77, 0xfe77, Mapped, Some [0x640; 0x64e]);
   (0xfe78, 0xfe78, Std3_mapped, Some [0x20; 0x64f]); (0xfe79, 0xfe79, Mapped, Some [0x640; 0x64f]); (0xfe7a, 0xfe7a, Std3_mapped, Some [0x20; 0x650]);
   (0xfe7b, 0xfe7b, Mapped, Some [0x640; 0x650]); (0xfe7c, 0xfe7c, Std3_mapped, Some [0x20; 0x651]); (0xfe7d, 0xfe7d, Mapped, Some [0x640; 0x651]);
   (0xfe7e, 0xfe7e, Std3_mapped, Some [0x20; 0x652]); (0xfe7f, 0xfe7f, Mapped, Some [0x640; 0x652]); (0xfe80, 0xfe80, Mapped, Some [0x621]);
   (0xfe81, 0xfe82, Mapped, Some [0x622]); (0xfe83, 0xfe84, Mapped, Some [0x623]); (0xfe85, 0xfe86, Mapped, Some [0x624]);
   (0xfe87, 0xfe88, Mapped, Some [0x625]); (0xfe89, 0xfe8c, Mapped, Some [0x626]); (0xfe8d, 0xfe8e, Mapped, Some [0x627]);
   (0xfe8f, 0xfe92, Mapped, Some [0x628]); (0xfe93, 0xfe94, Mapped, Some [0x629]); (0xfe95, 0xfe98, Mapped, Some [0x62a]);
   (0xfe99, 0xfe9c, Mapped, Some [0x62b]); (0xfe9d, 0xfea0, Mapped, Some [0x62c]); (0xfea1, 0xfea4, Mapped, Some [0x62d]);
   (0xfea5, 0xfea8, Mapped, Some [0x62e]); (0xfea9, 0xfeaa, Mapped, Some [0x62f]); (0xfeab, 0xfeac, Mapped, Some [0x630]);
   (0xfead, 0xfeae, Mapped, Some [0x631]); (0xfeaf, 0xfeb0, Mapped, Some [0x632]); (0xfeb1, 0xfeb4, Mapped, Some [0x633]);
   (0xfeb5, 0xfeb8, Mapped, Some [0x634]); (0xfeb9, 0xfebc, Mapped, Some [0x635]); (0xfebd, 0xfec0, Mapped, Some [0x636]);
   (0xfec1, 0xfec4, Mapped, Some [0x637]); (0xfec5, 0xfec8, Mapped, Some [0x638]); (0xfec9, 0xfecc, Mapped, Some [0x639]);
   (0xfecd, 0xfed0, Mapped, Some [0x63a]); (0xfed1, 0xfed4, Mapped, Some [0x641]); (0xfed5, 0xfed8, Mapped, Some [0x642]);
   (0xfed9, 0xfedc, Mapped, Some [0x643]); (0xfedd, 0xfee0, Mapped, Some [0x644]); (0xfee1, 0xfee4, Mapped, Some [0x645]);
   (0xfee5, 0xfee8, Mapped, Some [0x646]); (0xfee9, 0xfeec, Mapped, Some [0x647]); (0xfeed, 0xfeee, Mapped, Some [0x648]);
   (0xfeef, 0xfef0, Mapped, Some [0x649]); (0xfef1, 0xfef4, Mapped, Some [0x64a]); (0xfef5, 0xfef6, Mapped, Some [0x644; 0x622]);
   (0xfef7, 0xfef8, Mapped, Some [0x644; 0x623]); (0xfef9, 0xfefa, Mapped, Some [0x644; 0x625]); (0xfefb, 0xfefc, Mapped, Some [0x644; 0x627]);
   (0xfefd, 0xfefe, Disallowed, None); (0xfeff, 0xfeff, Ignored, None); (0xff00, 0xff00, Disallowed, None);
   (0xff01, 0xff01, Std3_mapped, Some [0x21]); (0xff02, 0xff02, Std3_mapped, Some [0x22]); (0xff03, 0xff03, Std3_mapped, Some [0x23]);
   (0xff04, 0xff04, Std3_mapped, Some [0x24]); (0xff05, 0xff05, Std3_mapped, Some [0x25]); (0xff06, 0xff06, Std3_mapped, Some [0x26]);
   (0xff07, 0xff07, Std3_mapped, Some [0x27]); (0xff08, 0xff08, Std3_mapped, Some [0x28]); (0xff09, 0xff09, Std3_mapped, Some [0x29]);
   (0xff0a, 0xff0a, Std3_mapped, Some [0x2a]); (0xff0b, 0xff0b, Std3_mapped, Some [0x2b]); (0xff0c, 0xff0c, Std3_mapped, Some [0x2c]);
   (0xff0d, 0xff0d, Mapped, Some [0x2d]); (0xff0e, 0xff0e, Mapped, Some [0x2e]); (0xff0f, 0xff0f, Std3_mapped, Some [0x2f]);
   (0xff10, 0xff10, Mapped, Some [0x30]); (0xff11, 0xff11, Mapped, Some [0x31]); (0xff12, 0xff12, Mapped, Some [0x32]);
   (0xff13, 0xff13, Mapped, Some [0x33]); (0xff14, 0xff14, Mapped, Some [0x34]); (0xff15, 0xff15, Mapped, Some [0x35]);
   (0xff16, 0xff16, Mapped, Some [0x36]); (0xff17, 0xff17, Mapped, Some [0x37]); (0xff18, 0xff18, Mapped, Some [0x38]);
   (0xff19, 0xff19, Mapped, Some [0x39]); (0xff1a, 0xff1a, Std3_mapped, Some [0x3a]); (0xff1b, 0xff1b, Std3_mapped, Some [0x3b]);
   (0xff1c, 0xff1c, Std3_mapped, Some [0x3c]); (0xff1d, 0xff1d, Std3_mapped, Some [0x3d]); (0xff1e, 0xff1e, Std3_mapped, Some [0x3e]);
   (0xff1f, 0xff1f, Std3_mapped, Some [0x3f]); (0xff20, 0xff20, Std3_mapped, Some [0x40]); (0xff21, 0xff21, Mapped, Some [0x61]);
   (0xff22, 0xff22, Mapped, Some [0x62]); (0xff23, 0xff23, Mapped, Some [0x63]); (0xff24, 0xff24, Mapped, Some [0x64]);
   (0xff25, 0xff25, Mapped, Some [0x65]); (0xff26, 0xff26, Mapped, Some [0x66]); (0xff27, 0xff27, Mapped, Some [0x67]);
   (0xff28, 0xff28, Mapped, Some [0x68]); (0xff29, 0xff29, Mapped, Some [0x69]); (0xff2a, 0xff2a, Mapped, Some [0x6a]);
   (0xff2b, 0xff2b, Mapped, Some [0x6b]); (0xff2c, 0xff2c, Mapped, Some [0x6c]); (0xff2d, 0xff2d, Mapped, Some [0x6d]);
   (0xff2e, 0xff2e, Mapped, Some [0x6e]); (0xff2f, 0xff2f, Mapped, Some [0x6f]); (0xff30, 0xff30, Mapped, Some [0x70]);
   (0xff31, 0xff31, Mapped, Some [0x71]); (0xff32, 0xff32, Mapped, Some [0x72]); (0xff33, 0xff33, Mapped, Some [0x73]);
   (0xff34, 0xff34, Mapped, Some [0x74]); (0xff35, 0xff35, Mapped, Some [0x75]); (0xff36, 0xff36, Mapped, Some [0x76]);
   (0xff37, 0xff37, Mapped, Some [0x77]); (0xff38, 0xff38, Mapped, Some [0x78]); (0xff39, 0xff39, Mapped, Some [0x79]);
   (0xff3a, 0xff3a, Mapped, Some [0x7a]); (0xff3b, 0xff3b, Std3_mapped, Some [0x5b]); (0xff3c, 0xff3c, Std3_mapped, Some [0x5c]);
   (0xff3d, 0xff3d, Std3_mapped, Some [0x5d]); (0xff3e, 0xff3e, Std3_mapped, Some [0x5e]); (0xff3f, 0xff3f, Std3_mapped, Some [0x5f]);
   (0xff40, 0xff40, Std3_mapped, Some [0x60]); (0xff41, 0xff41, Mapped, Some [0x61]); (0xff42, 0xff42, Mapped, Some [0x62]);
   (0xff43, 0xff43, Mapped, Some [0x63]); (0xff44, 0xff44, Mapped, Some [0x64]); (0xff45, 0xff45, Mapped, Some [0x65]);
   (0xff46, 0xff46, Mapped, Some [0x66]); (0xff47, 0xff47, Mapped, Some [0x67]); (0xff48, 0xff48, Mapped, Some [0x68]);
   (0xff49, 0xff49, Mapped, Some [0x69]); (0xff4a, 0xff4a, Mapped, Some [0x6a]); (0xff4b, 0xff4b, Mapped, Some [0x6b]);
   (0xff4c, 0xff4c, Mapped, Some [0x6c]); (0xff4d, 0xff4d, Mapped, Some [0x6d]); (0xff4e, 0xff4e, Mapped, Some [0x6e]);
   (0xff4f, 0xff4f, Mapped, Some [0x6f]); (0xff50, 0xff50, Mapped, Some [0x70]); (0xff51, 0xff51, Mapped, Some [0x71]);
   (0xff52, 0xff52, Mapped, Some [0x72]); (0xff53, 0xff53, Mapped, Some [0x73]); (0xff54, 0xff54, Mapped, Some [0x74]);
   (0xff55, 0xff55, Mapped, Some [0x75]); (0xff56, 0xff56, Mapped, Some [0x76]); (0xff57, 0xff57, Mapped, Some [0x77]);
   (0xff58, 0xff58, Mapped, Some [0x78]); (0xff59, 0xff59, Mapped, Some [0x79]); (0xff5a, 0xff5a, Mapped, Some [0x7a]);
   (0xff5b, 0xff5b, Std3_mapped, Some [0x7b]); (0xff5c, 0xff5c, Std3_mapped, Some [0x7c]); (0xff5d, 0xff5d, Std3_mapped, Some [0x7d]);
   (0xff5e, 0xff5e, Std3_mapped, Some [0x7e]); (0xff5f, 0xff5f, Mapped, Some [0x2985]); (0xff60, 0xff60, Mapped, Some [0x2986]);
   (0xff61, 0xff61, Mapped, Some [0x2e]); (0xff62, 0xff62, Mapped, Some [0x300c]); (0xff63, 0xff63, Mapped, Some [0x300d]);
   (0xff64, 0xff64, Mapped, Some [0x3001]); (0xff65, 0xff65, Mapped, Some [0x30fb]); (0xff66, 0xff66, Mapped, Some [0x30f2]);
   (0xff67, 0xff67, Mapped, Some [0x30a1]); (0xff68, 0xff68, Mapped, Some [0x30a3]); (0xff69, 0xff69, Mapped, Some [0x30a5]);
   (0xff6a, 0xff6a, Mapped, Some [0x30a7]); (0xff6b, 0xff6b, Mapped, Some [0x30a9]); (0xff6c, 0xff6c, Mapped, Some [0x30e3]);
   (0xff6d, 0xff6d, Mapped, Some [0x30e5]); (0xff6e, 0xff6e, Mapped, Some [0x30e7]); (0xff6f, 0xff6f, Mapped, Some [0x30c3]);
   (0xff70, 0xff70, Mapped, Some [0x30fc]); (0xff71, 0xff71, Mapped, Some [0x30a2]); (0xff72, 0xff72, Mapped, Some [0x30a4]);
   (0xff73, 0xff73, Mapped, Some [0x30a6]); (0xff74, 0xff74, Mapped, Some [0x30a8]); (0xff75, 0xff75, Mapped, Some [0x30aa]);
   (0xff76, 0xff76, Mapped, Some [0x30ab]); (0xff77, 0xff77, Mapped, Some [0x30ad]); (0xff78, 0xff78, Mapped, Some [0x30af]);
   (0xff79, 0xff79, Mapped, Some [0x30b1]); (0xff7a, 0xff7a, Mapped, Some [0x30b3]); (0xff7b, 0xff7b, Mapped, Some [0x30b5]);
   (0xff7c, 0xff7c, Mapped, Some [0x30b7]); (0xff7d, 0xff7d, Mapped, Some [0x30b9]); (0xff7e, 0xff7e, Mapped, Some [0x30bb]);
   (0xff7f, 0xff7f, Mapped, Some [0x30bd]); (0xff80, 0xff80, Mapped, Some [0x30bf]); (0xff81, 0xff81, Mapped, Some [0x30c1]);
   (0xff82, 0xff82, Mapped, Some [0x30c4]); (0xff83, 0xff83, Mapped, Some [0x30c6]); (0xff84, 0xff84, Mapped, Some [0x30c8]);
   (0xff85, 0xff85, Mapped, Some [0x30ca]); (0xff86, 0xff86, Mapped, Some [0x30cb]); (0xff87, 0xff87, Mapped, Some [0x30cc]);
   (0xff88, 0xff88, Mapped, Some [0x30cd]); (0xff89, 0xff89, Mapped, Some [0x30ce]); (0xff8a, 0xff8a, Mapped, Some [0x30cf]);
   (0xff8b, 0xff8b, Mapped, Some [0x30d2]); (0xff8c, 0xff8c, Mapped, Some [0x30d5]); (0xff8d, 0xff8d, Mapped, Some [0x30d8]);
   (0xff8e, 0xff8e, Mapped, Some [0x30db]); (0xff8f, 0xff8f, Mapped, Some [0x30de]); (0xff90, 0xff90, Mapped, Some [0x30df]);
   (0xff91, 0xff91, Mapped, Some [0x30e0]); (0xff92, 0xff92, Mapped, Some [0x30e1]); (0xff93, 0xff93, Mapped, Some [0x30e2]);
   (0xff94, 0xff94, Mapped, Some [0x30e4]); (0xff95, 0xff95, Mapped, Some [0x30e6]); (0xff96, 0xff96, Mapped, Some [0x30e8]);
   (0xff97, 0xff97, Mapped, Some [0x30e9]); (0xff98, 0xff98, Mapped, Some [0x30ea]); (0xff99, 0xff99, Mapped, Some [0x30eb]);
   (0xff9a, 0xff9a, Mapped, Some [0x30ec]); (0xff9b, 0xff9b, Mapped, Some [0x30ed]); (0xff9c, 0xff9c, Mapped, Some [0x30ef]);
   (0xff9d, 0xff9d, Mapped, Some [0x30f3]); (0xff9e, 0xff9e, Mapped, Some [0x3099]); (0xff9f, 0xff9f, Mapped, Some [0x309a]);
   (0xffa0, 0xffa0, Disallowed, None); (0xffa1, 0xffa1, Mapped, Some [0x1100]); (0xffa2, 0xffa2, Mapped, Some [0x1101]);
   (0xffa3, 0xffa3, Mapped, Some [0x11aa]); (0xffa4, 0xffa4, Mapped, Some [0x1102]); (0xffa5, 0xffa5, Mapped, Some [0x11ac]);
   (0xffa6, 0xffa6, Mapped, Some [0x11ad]); (0xffa7, 0xffa7, Mapped, Some [0x1103]); (0xffa8, 0xffa8, Mapped, Some [0x1104]);
   (0xffa9, 0xffa9, Mapped, Some [0x1105]); (0xffaa, 0xffaa, Mapped, Some [0x11b0]); (0xffab, 0xffab, Mapped, Some [0x11b1]);
   (0xffac, 0xffac, Mapped, Some [0x11b2]); (0xffad, 0xffad, Mapped, Some [0x11b3]); (0xffae, 0xffae, Mapped, Some [0x11b4]);
   (0xffaf, 0xffaf, Mapped, Some [0x11b5]); (0xffb0, 0xffb0, Mapped, Some [0x111a]); (0xffb1, 0xffb1, Mapped, Some [0x1106]);
   (0xffb2, 0xffb2, Mapped, Some [0x1107]); (0xffb3, 0xffb3, Mapped, Some [0x1108]); (0xffb4, 0xffb4, Mapped, Some [0x1121]);
   (0xffb5, 0xffb5, Mapped, Some [0x1109]); (0xffb6, 0xffb6, Mapped, Some [0x110a]); (0xffb7, 0xffb7, Mapped, Some [0x110b]);
   (0xffb8, 0xffb8, Mapped, Some [0x110c]); (0xffb9, 0xffb9, Mapped, Some [0x110d]); (0xffba, 0xffba, Mapped, Some [0x110e]);
   (0xffbb, 0xffbb, Mapped, Some [0x110f]); (0xffbc, 0xffbc, Mapped, Some [0x1110]); (0xffbd, 0xffbd, Mapped, Some [0x1111]);
   (0xffbe, 0xffbe, Mapped, Some [0x1112]); (0xffbf, 0xffc1, Disallowed, None); (0xffc2, 0xffc2, Mapped, Some [0x1161]);
   (0xffc3, 0xffc3, Mapped, Some [0x1162]); (0xffc4, 0xffc4, Mapped, Some [0x1163]); (0xffc5, 0xffc5, Mapped, Some [0x1164]);
   (0xffc6, 0xffc6, Mapped, Some [0x1165]); (0xffc7, 0xffc7, Mapped, Some [0x1166]); (0xffc8, 0xffc9, Disallowed, None);
   (0xffca, 0xffca, Mapped, Some [0x1167]); (0xffcb, 0xffcb, Mapped, Some [0x1168]); (0xffcc, 0xffcc, Mapped, Some [0x1169]);
   (0xffcd, 0xffcd, Mapped, Some [0x116a]); (0xffce, 0xffce, Mapped, Some [0x116b]); (0xffcf, 0xffcf, Mapped, Some [0x116c]);
   (0xffd0, 0xffd1, Disallowed, None); (0xffd2, 0xffd2, Mapped, Some [0x116d]); (0xffd3, 0xffd3, Mapped, Some [0x116e]);
   (0xffd4, 0xffd4, Mapped, Some [0x116f]); (0xffd5, 0xffd5, Mapped, Some [0x1170]); (0xffd6, 0xffd6, Mapped, Some [0x1171]);
   (0xffd7, 0xffd7, Mapped, Some [0x1172]); (0xffd8, 0xffd9, Disallowed, None); (0xffda, 0xffda, Mapped, Some [0x1173]);
   (0xffdb, 0xffdb, Mapped, Some [0x1174]); (0xffdc, 0xffdc, Mapped, Some [0x1175]); (0xffdd, 0xffdf, Disallowed, None);
   (0xffe0, 0xffe0, Mapped, Some [0xa2]); (0xffe1, 0xffe1, Mapped, Some [0xa3]); (0xffe2, 0xffe2, Mapped, Some [0xac]);
   (0xffe3, 0xffe3, Std3_mapped, Some [0x20; 0x304]); (0xffe4, 0xffe4, Mapped, Some [0xa6]); (0xffe5, 0xffe5, Mapped, Some [0xa5]);
   (0xffe6, 0xffe6, Mapped, Some [0x20a9]); (0xffe7, 0xffe7, Disallowed, None); (0xffe8, 0xffe8, Mapped, Some [0x2502]);
   (0xffe9, 0xffe9, Mapped, Some [0x2190]); (0xffea, 0xffea, Mapped, Some [0x2191]); (0xffeb, 0xffeb, Mapped, Some [0x2192]);
   (0xffec, 0xffec, Mapped, Some [0x2193]); (0xffed, 0xffed, Mapped, Some [0x25a0]); (0xffee, 0xffee, Mapped, Some [0x25cb]);
   (0xffef, 0xfff8, Disallowed, None); (0xfff9, 0xfffb, Disallowed, None); (0xfffc, 0xfffc, Disallowed, None);
   (0xfffd, 0xfffd, Disallowed, None); (0xfffe, 0xffff, Disallowed, None); (0x10000, 0x1000b, Valid, None);
   (0x1000c, 0x1000c, Disallowed, None); (0x1000d, 0x10026, Valid, None); (0x10027, 0x10027, Disallowed, None);
   (0x10028, 0x1003a, Valid, None); (0x1003b, 0x1003b, Disallowed, None); (0x1003c, 0x1003d, Valid, None);
   (0x1003e, 0x1003e, Disallowed, None); (0x1003f, 0x1004d, Valid, None); (0x1004e, 0x1004f, Disallowed, None);
   (0x10050, 0x1005d, Valid, None); (0x1005e, 0x1007f, Disallowed, None); (0x10080, 0x100fa, Valid, None);
   (0x100fb, 0x100ff, Disallowed, None); (0x10100, 0x10102, Valid, Some []); (0x10103, 0x10106, Disallowed, None);
   (0x10107, 0x10133, Valid, Some []); (0x10134, 0x10136, Disallowed, None); (0x10137, 0x1013f, Valid, Some []);
   (0x10140, 0x1018a, Valid, Some []); (0x1018b, 0x1018c, Valid, Some []); (0x1018d, 0x1018e, Valid, Some []);
   (0x1018f, 0x1018f, Disallowed, None); (0x10190, 0x1019b, Valid, Some []); (0x1019c, 0x1019c, Valid, Some []);
   (0x1019d, 0x1019f, Disallowed, None); (0x101a0, 0x101a0, Valid, Some []); (0x101a1, 0x101cf, Disallowed, None);
   (0x101d0, 0x101fc, Valid, Some []); (0x101fd, 0x101fd, Valid, None); (0x101fe, 0x1027f, Disallowed, None);
   (0x10280, 0x1029c, Valid, None); (0x1029d, 0x1029f, Disallowed, None); (0x102a0, 0x102d0, Valid, None);
   (0x102d1, 0x102df, Disallowed, None); (0x102e0, 0x102e0, Valid, None); (0x102e1, 0x102fb, Valid, Some []);
   (0x102fc, 0x102ff, Disallowed, None); (0x10300, 0x1031e, Valid, None); (0x1031f, 0x1031f, Valid, None);
   (0x10320, 0x10323, Valid, Some []); (0x10324, 0x1032c, Disallowed, None); (0x1032d, 0x1032f, Valid, None);
   (0x10330, 0x10340, Valid, None); (0x10341, 0x10341, Valid, Some []); (0x10342, 0x10349, Valid, None);
   (0x1034a, 0x1034a, Valid, Some []); (0x1034b, 0x1034f, Disallowed, None); (0x10350, 0x1037a, Valid, None);
   (0x1037b, 0x1037f, Disallowed, None); (0x10380, 0x1039d, Valid, None); (0x1039e, 0x1039e, Disallowed, None);
   (0x1039f, 0x1039f, Valid, Some []); (0x103a0, 0x103c3, Valid, None); (0x103c4, 0x103c7, Disallowed, None);
   (0x103c8, 0x103cf, Valid, None); (0x103d0, 0x103d5, Valid, Some []); (0x103d6, 0x103ff, Disallowed, None);
   (0x10400, 0x10400, Mapped, Some [0x10428]); (0x10401, 0x10401, Mapped, Some [0x10429]); (0x10402, 0x10402, Mapped, Some [0x1042a]);
   (0x10403, 0x10403, Mapped, Some [0x1042b]); (0x10404, 0x10404, Mapped, Some [0x1042c]); (0x10405, 0x10405, Mapped, Some [0x1042d]);
   (0x10406, 0x10406, Mapped, Some [0x1042e]); (0x10407, 0x10407, Mapped, Some [0x1042f]); (0x10408, 0x10408, Mapped, Some [0x10430]);
   (0x10409, 0x10409, Mapped, Some [0x10431]); (0x1040a, 0x1040a, Mapped, Some [0x10432]); (0x1040b, 0x1040b, Mapped, Some [0x10433]);
   (0x1040c, 0x1040c, Mapped, Some [0x10434]); (0x1040d, 0x1040d, Mapped, Some [0x10435]); (0x1040e, 0x1040e, Mapped, Some [0x10436]);
   (0x1040f, 0x1040f, Mapped, Some [0x10437]); (0x10410, 0x10410, Mapped, Some [0x10438]); (0x10411, 0x10411, Mapped, Some [0x10439]);
   (0x10412, 0x10412, Mapped, Some [0x1043a]); (0x10413, 0x10413, Mapped, Some [0x1043b]); (0x10414, 0x10414, Mapped, Some [0x1043c]);
   (0x10415, 0x10415, Mapped, Some [0x1043d]); (0x10416, 0x10416, Mapped, Some [0x1043e]); (0x10417, 0x10417, Mapped, Some [0x1043f]);
   (0x10418, 0x10418, Mapped, Some [0x10440]); (0x10419, 0x10419, Mapped, Some [0x10441]); (0x1041a, 0x1041a, Mapped, Some [0x10442]);
   (0x1041b, 0x1041b, Mapped, Some [0x10443]); (0x1041c, 0x1041c, Mapped, Some [0x10444]); (0x1041d, 0x1041d, Mapped, Some [0x10445]);
   (0x1041e, 0x1041e, Mapped, Some [0x10446]); (0x1041f, 0x1041f, Mapped, Some [0x10447]); (0x10420, 0x10420, Mapped, Some [0x10448]);
   (0x10421, 0x10421, Mapped, Some [0x10449]); (0x10422, 0x10422, Mapped, Some [0x1044a]); (0x10423, 0x10423, Mapped, Some [0x1044b]);
   (0x10424, 0x10424, Mapped, Some [0x1044c]); (0x10425, 0x10425, Mapped, Some [0x1044d]); (0x10426, 0x10426, Mapped, Some [0x1044e]);
   (0x10427, 0x10427, Mapped, Some [0x1044f]); (0x10428, 0x1044d, Valid, None); (0x1044e, 0x1049d, Valid, None);
   (0x1049e, 0x1049f, Disallowed, None); (0x104a0, 0x104a9, Valid, None); (0x104aa, 0x104af, Disallowed, None);
   (0x104b0, 0x104b0, Mapped, Some [0x104d8]); (0x104b1, 0x104b1, Mapped, Some [0x104d9]); (0x104b2, 0x104b2, Mapped, Some [0x104da]);
   (0x104b3, 0x104b3, Mapped, Some [0x104db]); (0x104b4, 0x104b4, Mapped, Some [0x104dc]); (0x104b5, 0x104b5, Mapped, Some [0x104dd]);
   (0x104b6, 0x104b6, Mapped, Some [0x104de]); (0x104b7, 0x104b7, Mapped, Some [0x104df]); (0x104b8, 0x104b8, Mapped, Some [0x104e0]);
   (0x104b9, 0x104b9, Mapped, Some [0x104e1]); (0x104ba, 0x104ba, Mapped, Some [0x104e2]); (0x104bb, 0x104bb, Mapped, Some [0x104e3]);
   (0x104bc, 0x104bc, Mapped, Some [0x104e4]); (0x104bd, 0x104bd, Mapped, Some [0x104e5]); (0x104be, 0x104be, Mapped, Some [0x104e6]);
   (0x104bf, 0x104bf, Mapped, Some [0x104e7]); (0x104c0, 0x104c0, Mapped, Some [0x104e8]); (0x104c1, 0x104c1, Mapped, Some [0x104e9]);
   (0x104c2, 0x104c2, Mapped, Some [0x104ea]); (0x104c3, 0x104c3, Mapped, Some [0x104eb]); (0x104c4, 0x104c4, Mapped, Some [0x104ec]);
   (0x104c5, 0x104c5, Mapped, Some [0x104ed]); (0x104c6, 0x104c6, Mapped, Some [0x104ee]); (0x104c7, 0x104c7, Mapped, Some [0x104ef]);
   (0x104c8, 0x104c8, Mapped, Some [0x104f0]); (0x104c9, 0x104c9, Mapped, Some [0x104f1]); (0x104ca, 0x104ca, Mapped, Some [0x104f2]);
   (0x104cb, 0x104cb, Mapped, Some [0x104f3]); (0x104cc, 0x104cc, Mapped, Some [0x104f4]); (0x104cd, 0x104cd, Mapped, Some [0x104f5]);
   (0x104ce, 0x104ce, Mapped, Some [0x104f6]); (0x104cf, 0x104cf, Mapped, Some [0x104f7]); (0x104d0, 0x104d0, Mapped, Some [0x104f8]);
   (0x104d1, 0x104d1, Mapped, Some [0x104f9]); (0x104d2, 0x104d2, Mapped, Some [0x104fa]); (0x104d3, 0x104d3, Mapped, Some [0x104fb]);
   (0x104d4, 0x104d7, Disallowed, None); (0x104d8, 0x104fb, Valid, None); (0x104fc, 0x104ff, Disallowed, None);
   (0x10500, 0x10527, Valid, None); (0x10528, 0x1052f, Disallowed, None); (0x10530, 0x10563, Valid, None);
   (0x10564, 0x1056e, Disallowed, None); (0x1056f, 0x1056f, Valid, Some []); (0x10570, 0x105ff, Disallowed, None);
   (0x10600, 0x10736, Valid, None); (0x10737, 0x1073f, Disallowed, None); (0x10740, 0x10755, Valid, None);
   (0x10756, 0x1075f, Disallowed, None); (0x10760, 0x10767, Valid, None); (0x10768, 0x107ff, Disallowed, None);
   (0x10800, 0x10805, Valid, None); (0x10806, 0x10807, Disallowed, None); (0x10808, 0x10808, Valid, None);
   (0x10809, 0x10809, Disallowed, None); (0x1080a, 0x10835, Valid, None); (0x10836, 0x10836, Disallowed, None);
   (0x10837, 0x10838, Valid, None); (0x10839, 0x1083b, Disallowed, None); (0x1083c, 0x1083c, Valid, None);
   (0x1083d, 0x1083e, Disallowed, None); (0x1083f, 0x1083f, Valid, None); (0x10840, 0x10855, Valid, None);
   (0x10856, 0x10856, Disallowed, None); (0x10857, 0x1085f, Valid, Some []); (0x10860, 0x10876, Valid, None);
   (0x10877, 0x1087f, Valid, Some []); (0x10880, 0x1089e, Valid, None); (0x1089f, 0x108a6, Disallowed, None);
   (0x108a7, 0x108af, Valid, Some []); (0x108b0, 0x108df, Disallowed, None); (0x108e0, 0x108f2, Valid, None);
   (0x108f3, 0x108f3, Disallowed, None); (0x108f4, 0x108f5, Valid, None); (0x108f6, 0x108fa, Disallowed, None);
   (0x108fb, 0x108ff, Valid, Some []); (0x10900, 0x10915, Valid, None); (0x10916, 0x10919, Valid, Some []);
   (0x1091a, 0x1091b, Valid, Some []); (0x1091c, 0x1091e, Disallowed, None); (0x1091f, 0x1091f, Valid, Some []);
   (0x10920, 0x10939, Valid, None); (0x1093a, 0x1093e, Disallowed, None); (0x1093f, 0x1093f, Valid, Some []);
   (0x10940, 0x1097f, Disallowed, None); (0x10980, 0x109b7, Valid, None); (0x109b8, 0x109bb, Disallowed, None);
   (0x109bc, 0x109bd, Valid, Some []); (0x109be, 0x109bf, Valid, None); (0x109c0, 0x109cf, Valid, Some []);
   (0x109d0, 0x109d1, Disallowed, None); (0x109d2, 0x109ff, Valid, Some []); (0x10a00, 0x10a03, Valid, None);
   (0x10a04, 0x10a04, Disallowed, None); (0x10a05, 0x10a06, Valid, None); (0x10a07, 0x10a0b, Disallowed, None);
   (0x10a0c, 0x10a13, Valid, None); (0x10a14, 0x10a14, Disallowed, None); (0x10a15, 0x10a17, Valid, None);
   (0x10a18, 0x10a18, Disallowed, None); (0x10a19, 0x10a33, Valid, None); (0x10a34, 0x10a35, Valid, None);
   (0x10a36, 0x10a37, Disallowed, None); (0x10a38, 0x10a3a, Valid, None); (0x10a3b, 0x10a3e, Disallowed, None);
   (0x10a3f, 0x10a3f, Valid, None); (0x10a40, 0x10a47, Valid, Some []); (0x10a48, 0x10a48, Valid, Some []);
   (0x10a49, 0x10a4f, Disallowed, None); (0x10a50, 0x10a58, Valid, Some []); (0x10a59, 0x10a5f, Disallowed, None);
   (0x10a60, 0x10a7c, Valid, None); (0x10a7d, 0x10a7f, Valid, Some []); (0x10a80, 0x10a9c, Valid, None);
   (0x10a9d, 0x10a9f, Valid, Some []); (0x10aa0, 0x10abf, Disallowed, None); (0x10ac0, 0x10ac7, Valid, None);
   (0x10ac8, 0x10ac8, Valid, Some []); (0x10ac9, 0x10ae6, Valid, None); (0x10ae7, 0x10aea, Disallowed, None);
   (0x10aeb, 0x10af6, Valid, Some []); (0x10af7, 0x10aff, Disallowed, None); (0x10b00, 0x10b35, Valid, None);
   (0x10b36, 0x10b38, Disallowed, None); (0x10b39, 0x10b3f, Valid, Some []); (0x10b40, 0x10b55, Valid, None);
   (0x10b56, 0x10b57, Disallowed, None); (0x10b58, 0x10b5f, Valid, Some []); (0x10b60, 0x10b72, Valid, None);
   (0x10b73, 0x10b77, Disallowed, None); (0x10b78, 0x10b7f, Valid, Some []); (0x10b80, 0x10b91, Valid, None);
   (0x10b92, 0x10b98, Disallowed, None); (0x10b99, 0x10b9c, Valid, Some []); (0x10b9d, 0x10ba8, Disallowed, None);
   (0x10ba9, 0x10baf, Valid, Some []); (0x10bb0, 0x10bff, Disallowed, None); (0x10c00, 0x10c48, Valid, None);
   (0x10c49, 0x10c7f, Disallowed, None); (0x10c80, 0x10c80, Mapped, Some [0x10cc0]); (0x10c81, 0x10c81, Mapped, Some [0x10cc1]);
   (0x10c82, 0x10c82, Mapped, Some [0x10cc2]); (0x10c83, 0x10c83, Mapped, Some [0x10cc3]); (0x10c84, 0x10c84, Mapped, Some [0x10cc4]);
   (0x10c85, 0x10c85, Mapped, Some [0x10cc5]); (0x10c86, 0x10c86, Mapped, Some [0x10cc6]); (0x10c87, 0x10c87, Mapped, Some [0x10cc7]);
   (0x10c88, 0x10c88, Mapped, Some [0x10cc8]); (0x10c89, 0x10c89, Mapped, Some [0x10cc9]); (0x10c8a, 0x10c8a, Mapped, Some [0x10cca]);
   (0x10c8b, 0x10c8b, Mapped, Some [0x10ccb]); (0x10c8c, 0x10c8c, Mapped, Some [0x10ccc]); (0x10c8d, 0x10c8d, Mapped, Some [0x10ccd]);
   (0x10c8e, 0x10c8e, Mapped, Some [0x10cce]); (0x10c8f, 0x10c8f, Mapped, Some [0x10ccf]); (0x10c90, 0x10c90, Mapped, Some [0x10cd0]);
   (0x10c91, 0x10c91, Mapped, Some [0x10cd1]); (0x10c92, 0x10c92, Mapped, Some [0x10cd2]); (0x10c93, 0x10c93, Mapped, Some [0x10cd3]);
   (0x10c94, 0x10c94, Mapped, Some [0x10cd4]); (0x10c95, 0x10c95, Mapped, Some [0x10cd5]); (0x10c96, 0x10c96, Mapped, Some [0x10cd6]);
   (0x10c97, 0x10c97, Mapped, Some [0x10cd7]); (0x10c98, 0x10c98, Mapped, Some [0x10cd8]); (0x10c99, 0x10c99, Mapped, Some [0x10cd9]);
   (0x10c9a, 0x10c9a, Mapped, Some [0x10cda]); (0x10c9b, 0x10c9b, Mapped, Some [0x10cdb]); (0x10c9c, 0x10c9c, Mapped, Some [0x10cdc]);
   (0x10c9d, 0x10c9d, Mapped, Some [0x10cdd]); (0x10c9e, 0x10c9e, Mapped, Some [0x10cde]); (0x10c9f, 0x10c9f, Mapped, Some [0x10cdf]);
   (0x10ca0, 0x10ca0, Mapped, Some [0x10ce0]); (0x10ca1, 0x10ca1, Mapped, Some [0x10ce1]); (0x10ca2, 0x10ca2, Mapped, Some [0x10ce2]);
   (0x10ca3, 0x10ca3, Mapped, Some [0x10ce3]); (0x10ca4, 0x10ca4, Mapped, Some [0x10ce4]); (0x10ca5, 0x10ca5, Mapped, Some [0x10ce5]);
   (0x10ca6, 0x10ca6, Mapped, Some [0x10ce6]); (0x10ca7, 0x10ca7, Mapped, Some [0x10ce7]); (0x10ca8, 0x10ca8, Mapped, Some [0x10ce8]);
   (0x10ca9, 0x10ca9, Mapped, Some [0x10ce9]); (0x10caa, 0x10caa, Mapped, Some [0x10cea]); (0x10cab, 0x10cab, Mapped, Some [0x10ceb]);
   (0x10cac, 0x10cac, Mapped, Some [0x10cec]); (0x10cad, 0x10cad, Mapped, Some [0x10ced]); (0x10cae, 0x10cae, Mapped, Some [0x10cee]);
   (0x10caf, 0x10caf, Mapped, Some [0x10cef]); (0x10cb0, 0x10cb0, Mapped, Some [0x10cf0]); (0x10cb1, 0x10cb1, Mapped, Some [0x10cf1]);
   (0x10cb2, 0x10cb2, Mapped, Some [0x10cf2]); (0x10cb3, 0x10cbf, Disallowed, None); (0x10cc0, 0x10cf2, Valid, None);
   (0x10cf3, 0x10cf9, Disallowed, None); (0x10cfa, 0x10cff, Valid, Some []); (0x10d00, 0x10d27, Valid, None);
   (0x10d28, 0x10d2f, Disallowed, None); (0x10d30, 0x10d39, Valid, None); (0x10d3a, 0x10e5f, Disallowed, None);
   (0x10e60, 0x10e7e, Valid, Some []); (0x10e7f, 0x10e7f, Disallowed, None); (0x10e80, 0x10ea9, Valid, None);
   (0x10eaa, 0x10eaa, Disallowed, None); (0x10eab, 0x10eac, Valid, None); (0x10ead, 0x10ead, Valid, Some []);
   (0x10eae, 0x10eaf, Disallowed, None); (0x10eb0, 0x10eb1, Valid, None); (0x10eb2, 0x10eff, Disallowed, None);
   (0x10f00, 0x10f1c, Valid, None); (0x10f1d, 0x10f26, Valid, Some []); (0x10f27, 0x10f27, Valid, None);
   (0x10f28, 0x10f2f, Disallowed, None); (0x10f30, 0x10f50, Valid, None); (0x10f51, 0x10f59, Valid, Some []);
   (0x10f5a, 0x10faf, Disallowed, None); (0x10fb0, 0x10fc4, Valid, None); (0x10fc5, 0x10fcb, Valid, Some []);
   (0x10fcc, 0x10fdf, Disallowed, None); (0x10fe0, 0x10ff6, Valid, None); (0x10ff7, 0x10fff, Disallowed, None);
   (0x11000, 0x11046, Valid, None); (0x11047, 0x1104d, Valid, Some []); (0x1104e, 0x11051, Disallowed, None);
   (0x11052, 0x11065, Valid, Some []); (0x11066, 0x1106f, Valid, None); (0x11070, 0x1107e, Disallowed, None);
   (0x1107f, 0x1107f, Valid, None); (0x11080, 0x110ba, Valid, None); (0x110bb, 0x110bc, Valid, Some []);
   (0x110bd, 0x110bd, Disallowed, None); (0x110be, 0x110c1, Valid, Some []); (0x110c2, 0x110cc, Disallowed, None);
   (0x110cd, 0x110cd, Disallowed, None); (0x110ce, 0x110cf, Disallowed, None); (0x110d0, 0x110e8, Valid, None);
   (0x110e9, 0x110ef, Disallowed, None); (0x110f0, 0x110f9, Valid, None); (0x110fa, 0x110ff, Disallowed, None);
   (0x11100, 0x11134, Valid, None); (0x11135, 0x11135, Disallowed, None); (0x11136, 0x1113f, Valid, None);
   (0x11140, 0x11143, Valid, Some []); (0x11144, 0x11146, Valid, None); (0x11147, 0x11147, Valid, None);
   (0x11148, 0x1114f, Disallowed, None); (0x11150, 0x11173, Valid, None); (0x11174, 0x11175, Valid, Some []);
   (0x11176, 0x11176, Valid, None); (0x11177, 0x1117f, Disallowed, None); (0x11180, 0x111c4, Valid, None);
   (0x111c5, 0x111c8, Valid, Some []); (0x111c9, 0x111cc, Valid, None); (0x111cd, 0x111cd, Valid, Some []);
   (0x111ce, 0x111cf, Valid, None); (0x111d0, 0x111d9, Valid, None); (0x111da, 0x111da, Valid, None);
   (0x111db, 0x111db, Valid, Some []); (0x111dc, 0x111dc, Valid, None); (0x111dd, 0x111df, Valid, Some []);
   (0x111e0, 0x111e0, Disallowed, None); (0x111e1, 0x111f4, Valid, Some []); (0x111f5, 0x111ff, Disallowed, None);
   (0x11200, 0x11211, Valid, None); (0x11212, 0x11212, Disallowed, None); (0x11213, 0x11237, Valid, None);
   (0x11238, 0x1123d, Valid, Some []); (0x1123e, 0x1123e, Valid, None); (0x1123f, 0x1127f, Disallowed, None);
   (0x11280, 0x11286, Valid, None); (0x11287, 0x11287, Disallowed, None); (0x11288, 0x11288, Valid, None);
   (0x11289, 0x11289, Disallowed, None); (0x1128a, 0x1128d, Valid, None); (0x1128e, 0x1128e, Disallowed, None);
   (0x1128f, 0x1129d, Valid, None); (0x1129e, 0x1129e, Disallowed, None); (0x1129f, 0x112a8, Valid, None);
   (0x112a9, 0x112a9, Valid, Some []); (0x112aa, 0x112af, Disallowed, None); (0x112b0, 0x112ea, Valid, None);
   (0x112eb, 0x112ef, Disallowed, None); (0x112f0, 0x112f9, Valid, None); (0x112fa, 0x112ff, Disallowed, None);
   (0x11300, 0x11300, Valid, None); (0x11301, 0x11303, Valid, None); (0x11304, 0x11304, Disallowed, None);
   (0x11305, 0x1130c, Valid, None); (0x1130d, 0x1130e, Disallowed, None); (0x1130f, 0x11310, Valid, None);
   (0x11311, 0x11312, Disallowed, None); (0x11313, 0x11328, Valid, None); (0x11329, 0x11329, Disallowed, None);
   (0x1132a, 0x11330, Valid, None); (0x11331, 0x11331, Disallowed, None); (0x11332, 0x11333, Valid, None);
   (0x11334, 0x11334, Disallowed, None); (0x11335, 0x11339, Valid, None); (0x1133a, 0x1133a, Disallowed, None);
   (0x1133b, 0x1133b, Valid, None); (0x1133c, 0x11344, Valid, None); (0x11345, 0x11346, Disallowed, None);
   (0x11347, 0x11348, Valid, None); (0x11349, 0x1134a, Disallowed, None); (0x1134b, 0x1134d, Valid, None);
   (0x1134e, 0x1134f, Disallowed, None); (0x11350, 0x11350, Valid, None); (0x11351, 0x11356, Disallowed, None);
   (0x11357, 0x11357, Valid, None); (0x11358, 0x1135c, Disallowed, None); (0x1135d, 0x11363, Valid, None);
   (0x11364, 0x11365, Disallowed, None); (0x11366, 0x1136c, Valid, None); (0x1136d, 0x1136f, Disallowed, None);
   (0x11370, 0x11374, Valid, None); (0x11375, 0x113ff, Disallowed, None); (0x11400, 0x1144a, Valid, None);
   (0x1144b, 0x1144f, Valid, Some []); (0x11450, 0x11459, Valid, None); (0x1145a, 0x1145a, Valid, Some []);
   (0x1145b, 0x1145b, Valid, Some []); (0x1145c, 0x1145c, Disallowed, None); (0x1145d, 0x1145d, Valid, Some []);
   (0x1145e, 0x1145e, Valid, None); (0x1145f, 0x1145f, Valid, None); (0x11460, 0x11461, Valid, None);
   (0x11462, 0x1147f, Disallowed, None); (0x11480, 0x114c5, Valid, None); (0x114c6, 0x114c6, Valid, Some []);
   (0x114c7, 0x114c7, Valid, None); (0x114c8, 0x114cf, Disallowed, None); (0x114d0, 0x114d9, Valid, None);
   (0x114da, 0x1157f, Disallowed, None); (0x11580, 0x115b5, Valid, None); (0x115b6, 0x115b7, Disallowed, None);
   (0x115b8, 0x115c0, Valid, None); (0x115c1, 0x115c9, Valid, Some []); (0x115ca, 0x115d7, Valid, Some []);
   (0x115d8, 0x115dd, Valid, None); (0x115de, 0x115ff, Disallowed, None); (0x11600, 0x11640, Valid, None);
   (0x11641, 0x11643, Valid, Some []); (0x11644, 0x11644, Valid, None); (0x11645, 0x1164f, Disallowed, None);
   (0x11650, 0x11659, Valid, None); (0x1165a, 0x1165f, Disallowed, None); (0x11660, 0x1166c, Valid, Some []);
   (0x1166d, 0x1167f, Disallowed, None); (0x11680, 0x116b7, Valid, None); (0x116b8, 0x116b8, Valid, None);
   (0x116b9, 0x116bf, Disallowed, None); (0x116c0, 0x116c9, Valid, None); (0x116ca, 0x116ff, Disallowed, None);
   (0x11700, 0x11719, Valid, None); (0x1171a, 0x1171a, Valid, None); (0x1171b, 0x1171c, Disallowed, None);
   (0x1171d, 0x1172b, Valid, None); (0x1172c, 0x1172f, Disallowed, None); (0x11730, 0x11739, Valid, None);
   (0x1173a, 0x1173f, Valid, Some []); (0x11740, 0x117ff, Disallowed, None); (0x11800, 0x1183a, Valid, None);
   (0x1183b, 0x1183b, Valid, Some []); (0x1183c, 0x1189f, Disallowed, None); (0x118a0, 0x118a0, Mapped, Some [0x118c0]);
   (0x118a1, 0x118a1, Mapped, Some [0x118c1]); (0x118a2, 0x118a2, Mapped, Some [0x118c2]); (0x118a3, 0x118a3, Mapped, Some [0x118c3]);
   (0x118a4, 0x118a4, Mapped, Some [0x118c4]); (0x118a5, 0x118a5, Mapped, Some [0x118c5]); (0x118a6, 0x118a6, Mapped, Some [0x118c6]);
   (0x118a7, 0x118a7, Mapped, Some [0x118c7]); (0x118a8, 0x118a8, Mapped, Some [0x118c8]); (0x118a9, 0x118a9, Mapped, Some [0x118c9]);
   (0x118aa, 0x118aa, Mapped, Some [0x118ca]); (0x118ab, 0x118ab, Mapped, Some [0x118cb]); (0x118ac, 0x118ac, Mapped, Some [0x118cc]);
   (0x118ad, 0x118ad, Mapped, Some [0x118cd]); (0x118ae, 0x118ae, Mapped, Some [0x118ce]); (0x118af, 0x118af, Mapped, Some [0x118cf]);
   (0x118b0, 0x118b0, Mapped, Some [0x118d0]); (0x118b1, 0x118b1, Mapped, Some [0x118d1]); (0x118b2, 0x118b2, Mapped, Some [0x118d2]);
   (0x118b3, 0x118b3, Mapped, Some [0x118d3]); (0x118b4, 0x118b4, Mapped, Some [0x118d4]); (0x118b5, 0x118b5, Mapped, Some [0x118d5]);
   (0x118b6, 0x118b6, Mapped, Some [0x118d6]); (0x118b7, 0x118b7, Mapped, Some [0x118d7]); (0x118b8, 0x118b8, Mapped, Some [0x118d8]);
   (0x118b9, 0x118b9, Mapped, Some [0x118d9]); (0x118ba, 0x118ba, Mapped, Some [0x118da]); (0x118bb, 0x118bb, Mapped, Some [0x118db]);
   (0x118bc, 0x118bc, Mapped, Some [0x118dc]); (0x118bd, 0x118bd, Mapped, Some [0x118dd]); (0x118be, 0x118be, Mapped, Some [0x118de]);
   (0x118bf, 0x118bf, Mapped, Some [0x118df]); (0x118c0, 0x118e9, Valid, None); (0x118ea, 0x118f2, Valid, Some []);
   (0x118f3, 0x118fe, Disallowed, None); (0x118ff, 0x118ff, Valid, None); (0x11900, 0x11906, Valid, None);
   (0x11907, 0x11908, Disallowed, None); (0x11909, 0x11909, Valid, None); (0x1190a, 0x1190b, Disallowed, None);
   (0x1190c, 0x11913, Valid, None); (0x11914, 0x11914, Disallowed, None); (0x11915, 0x11916, Valid, None);
   (0x11917, 0x11917, Disallowed, None); (0x11918, 0x11935, Valid, None); (0x11936, 0x11936, Disallowed, None);
   (0x11937, 0x11938, Valid, None); (0x11939, 0x1193a, Disallowed, None); (0x1193b, 0x11943, Valid, None);
   (0x11944, 0x11946, Valid, Some []); (0x11947, 0x1194f, Disallowed, None); (0x11950, 0x11959, Valid, None);
   (0x1195a, 0x1199f, Disallowed, None); (0x119a0, 0x119a7, Valid, None); (0x119a8, 0x119a9, Disallowed, None);
   (0x119aa, 0x119d7, Valid, None); (0x119d8, 0x119d9, Disallowed, None); (0x119da, 0x119e1, Valid, None);
   (0x119e2, 0x119e2, Valid, Some []); (0x119e3, 0x119e4, Valid, None); (0x119e5, 0x119ff, Disallowed, None);
   (0x11a00, 0x11a3e, Valid, None); (0x11a3f, 0x11a46, Valid, Some []); (0x11a47, 0x11a47, Valid, None);
   (0x11a48, 0x11a4f, Disallowed, None); (0x11a50, 0x11a83, Valid, None); (0x11a84, 0x11a85, Valid, None);
   (0x11a86, 0x11a99, Valid, None); (0x11a9a, 0x11a9c, Valid, Some []); (0x11a9d, 0x11a9d, Valid, None);
   (0x11a9e, 0x11aa2, Valid, Some []); (0x11aa3, 0x11abf, Disallowed, None); (0x11ac0, 0x11af8, Valid, None);
   (0x11af9, 0x11bff, Disallowed, None); (0x11c00, 0x11c08, Valid, None); (0x11c09, 0x11c09, Disallowed, None);
   (0x11c0a, 0x11c36, Valid, None); (0x11c37, 0x11c37, Disallowed, None); (0x11c38, 0x11c40, Valid, None);
   (0x11c41, 0x11c45, Valid, Some []); (0x11c46, 0x11c4f, Disallowed, None); (0x11c50, 0x11c59, Valid, None);
   (0x11c5a, 0x11c6c, Valid, Some []); (0x11c6d, 0x11c6f, Disallowed, None); (0x11c70, 0x11c71, Valid, Some []);
   (0x11c72, 0x11c8f, Valid, None); (0x11c90, 0x11c91, Disallowed, None); (0x11c92, 0x11ca7, Valid, None);
   (0x11ca8, 0x11ca8, Disallowed, None); (0x11ca9, 0x11cb6, Valid, None); (0x11cb7, 0x11cff, Disallowed, None);
   (0x11d00, 0x11d06, Valid, None); (0x11d07, 0x11d07, Disallowed, None); (0x11d08, 0x11d09, Valid, None);
   (0x11d0a, 0x11d0a, Disallowed, None); (0x11d0b, 0x11d36, Valid, None); (0x11d37, 0x11d39, Disallowed, None);
   (0x11d3a, 0x11d3a, Valid, None); (0x11d3b, 0x11d3b, Disallowed, None); (0x11d3c, 0x11d3d, Valid, None);
   (0x11d3e, 0x11d3e, Disallowed, None); (0x11d3f, 0x11d47, Valid, None); (0x11d48, 0x11d4f, Disallowed, None);
   (0x11d50, 0x11d59, Valid, None); (0x11d5a, 0x11d5f, Disallowed, None); (0x11d60, 0x11d65, Valid, None);
   (0x11d66, 0x11d66, Disallowed, None); (0x11d67, 0x11d68, Valid, None); (0x11d69, 0x11d69, Disallowed, None);
   (0x11d6a, 0x11d8e, Valid, None); (0x11d8f, 0x11d8f, Disallowed, None); (0x11d90, 0x11d91, Valid, None);
   (0x11d92, 0x11d92, Disallowed, None); (0x11d93, 0x11d98, Valid, None); (0x11d99, 0x11d9f, Disallowed, None);
   (0x11da0, 0x11da9, Valid, None); (0x11daa, 0x11edf, Disallowed, None); (0x11ee0, 0x11ef6, Valid, None);
   (0x11ef7, 0x11ef8, Valid, Some []); (0x11ef9, 0x11faf, Disallowed, None); (0x11fb0, 0x11fb0, Valid, None);
   (0x11fb1, 0x11fbf, Disallowed, None); (0x11fc0, 0x11ff1, Valid, Some []); (0x11ff2, 0x11ffe, Disallowed, None);
   (0x11fff, 0x11fff, Valid, Some []); (0x12000, 0x1236e, Valid, None); (0x1236f, 0x12398, Valid, None);
   (0x12399, 0x12399, Valid, None); (0x1239a, 0x123ff, Disallowed, None); (0x12400, 0x12462, Valid, Some []);
   (0x12463, 0x1246e, Valid, Some []); (0x1246f, 0x1246f, Disallowed, None); (0x12470, 0x12473, Valid, Some []);
   (0x12474, 0x12474, Valid, Some []); (0x12475, 0x1247f, Disallowed, None); (0x12480, 0x12543, Valid, None);
   (0x12544, 0x12fff, Disallowed, None); (0x13000, 0x1342e, Valid, None); (0x1342f, 0x1342f, Disallowed, None);
   (0x13430, 0x13438, Disallowed, None); (0x13439, 0x143ff, Disallowed, None); (0x14400, 0x14646, Valid, None);
   (0x14647, 0x167ff, Disallowed, None); (0x16800, 0x16a38, Valid, None); (0x16a39, 0x16a3f, Disallowed, None);
   (0x16a40, 0x16a5e, Valid, None); (0x16a5f, 0x16a5f, Disallowed, None); (0x16a60, 0x16a69, Valid, None);
   (0x16a6a, 0x16a6d, Disallowed, None); (0x16a6e, 0x16a6f, Valid, Some []); (0x16a70, 0x16acf, Disallowed, None);
   (0x16ad0, 0x16aed, Valid, None); (0x16aee, 0x16aef, Disallowed, None); (0x16af0, 0x16af4, Valid, None);
   (0x16af5, 0x16af5, Valid, Some []); (0x16af6, 0x16aff, Disallowed, None); (0x16b00, 0x16b36, Valid, None);
   (0x16b37, 0x16b3f, Valid, Some []); (0x16b40, 0x16b43, Valid, None); (0x16b44, 0x16b45, Valid, Some []);
   (0x16b46, 0x16b4f, Disallowed, None); (0x16b50, 0x16b59, Valid, None); (0x16b5a, 0x16b5a, Disallowed, None);
   (0x16b5b, 0x16b61, Valid, Some []); (0x16b62, 0x16b62, Disallowed, None); (0x16b63, 0x16b77, Valid, None);
   (0x16b78, 0x16b7c, Disallowed, None); (0x16b7d, 0x16b8f, Valid, None); (0x16b90, 0x16e3f, Disallowed, None);
   (0x16e40, 0x16e40, Mapped, Some [0x16e60]); (0x16e41, 0x16e41, Mapped, Some [0x16e61]); (0x16e42, 0x16e42, Mapped, Some [0x16e62]);
   (0x16e43, 0x16e43, Mapped, Some [0x16e63]); (0x16e44, 0x16e44, Mapped, Some [0x16e64]); (0x16e45, 0x16e45, Mapped, Some [0x16e65]);
   (0x16e46, 0x16e46, Mapped, Some [0x16e66]); (0x16e47, 0x16e47, Mapped, Some [0x16e67]); (0x16e48, 0x16e48, Mapped, Some [0x16e68]);
   (0x16e49, 0x16e49, Mapped, Some [0x16e69]); (0x16e4a, 0x16e4a, Mapped, Some [0x16e6a]); (0x16e4b, 0x16e4b, Mapped, Some [0x16e6b]);
   (0x16e4c, 0x16e4c, Mapped, Some [0x16e6c]); (0x16e4d, 0x16e4d, Mapped, Some [0x16e6d]); (0x16e4e, 0x16e4e, Mapped, Some [0x16e6e]);
   (0x16e4f, 0x16e4f, Mapped, Some [0x16e6f]); (0x16e50, 0x16e50, Mapped, Some [0x16e70]); (0x16e51, 0x16e51, Mapped, Some [0x16e71]);
   (0x16e52, 0x16e52, Mapped, Some [0x16e72]); (0x16e53, 0x16e53, Mapped, Some [0x16e73]); (0x16e54, 0x16e54, Mapped, Some [0x16e74]);
   (0x16e55, 0x16e55, Mapped, Some [0x16e75]); (0x16e56, 0x16e56, Mapped, Some [0x16e76]); (0x16e57, 0x16e57, Mapped, Some [0x16e77]);
   (0x16e58, 0x16e58, Mapped, Some [0x16e78]); (0x16e59, 0x16e59, Mapped, Some [0x16e79]); (0x16e5a, 0x16e5a, Mapped, Some [0x16e7a]);
   (0x16e5b, 0x16e5b, Mapped, Some [0x16e7b]); (0x16e5c, 0x16e5c, Mapped, Some [0x16e7c]); (0x16e5d, 0x16e5d, Mapped, Some [0x16e7d]);
   (0x16e5e, 0x16e5e, Mapped, Some [0x16e7e]); (0x16e5f, 0x16e5f, Mapped, Some [0x16e7f]); (0x16e60, 0x16e7f, Valid, None);
   (0x16e80, 0x16e9a, Valid, Some []); (0x16e9b, 0x16eff, Disallowed, None); (0x16f00, 0x16f44, Valid, None);
   (0x16f45, 0x16f4a, Valid, None); (0x16f4b, 0x16f4e, Disallowed, None); (0x16f4f, 0x16f4f, Valid, None);
   (0x16f50, 0x16f7e, Valid, None); (0x16f7f, 0x16f87, Valid, None); (0x16f88, 0x16f8e, Disallowed, None);
   (0x16f8f, 0x16f9f, Valid, None); (0x16fa0, 0x16fdf, Disallowed, None); (0x16fe0, 0x16fe0, Valid, None);
   (0x16fe1, 0x16fe1, Valid, None); (0x16fe2, 0x16fe2, Valid, Some []); (0x16fe3, 0x16fe3, Valid, None);
   (0x16fe4, 0x16fe4, Valid, None); (0x16fe5, 0x16fef, Disallowed, None); (0x16ff0, 0x16ff1, Valid, None);
   (0x16ff2, 0x16fff, Disallowed, None); (0x17000, 0x187ec, Valid, None); (0x187ed, 0x187f1, Valid, None);
   (0x187f2, 0x187f7, Valid, None); (0x187f8, 0x187ff, Disallowed, None); (0x18800, 0x18af2, Valid, None);
   (0x18af3, 0x18cd5, Valid, None); (0x18cd6, 0x18cff, Disallowed, None); (0x18d00, 0x18d08, Valid, None);
   (0x18d09, 0x1afff, Disallowed, None); (0x1b000, 0x1b001, Valid, None); (0x1b002, 0x1b11e, Valid, None);
   (0x1b11f, 0x1b14f, Disallowed, None); (0x1b150, 0x1b152, Valid, None); (0x1b153, 0x1b163, Disallowed, None);
   (0x1b164, 0x1b167, Valid, None); (0x1b168, 0x1b16f, Disallowed, None); (0x1b170, 0x1b2fb, Valid, None);
   (0x1b2fc, 0x1bbff, Disallowed, None); (0x1bc00, 0x1bc6a, Valid, None); (0x1bc6b, 0x1bc6f, Disallowed, None);
   (0x1bc70, 0x1bc7c, Valid, None); (0x1bc7d, 0x1bc7f, Disallowed, None); (0x1bc80, 0x1bc88, Valid, None);
   (0x1bc89, 0x1bc8f, Disallowed, None); (0x1bc90, 0x1bc99, Valid, None); (0x1bc9a, 0x1bc9b, Disallowed, None);
   (0x1bc9c, 0x1bc9c, Valid, Some []); (0x1bc9d, 0x1bc9e, Valid, None); (0x1bc9f, 0x1bc9f, Valid, Some []);
   (0x1bca0, 0x1bca3, Ignored, None); (0x1bca4, 0x1cfff, Disallowed, None); (0x1d000, 0x1d0f5, Valid, Some []);
   (0x1d0f6, 0x1d0ff, Disallowed, None); (0x1d100, 0x1d126, Valid, Some []); (0x1d127, 0x1d128, Disallowed, None);
   (0x1d129, 0x1d129, Valid, Some []); (0x1d12a, 0x1d15d, Valid, Some []); (0x1d15e, 0x1d15e, Mapped, Some [0x1d157; 0x1d165]);
   (0x1d15f, 0x1d15f, Mapped, Some [0x1d158; 0x1d165]); (0x1d160, 0x1d160, Mapped, Some [0x1d158; 0x1d165; 0x1d16e]); (0x1d161, 0x1d161, Mapped, Some [0x1d158; 0x1d165; 0x1d16f]);
   (0x1d162, 0x1d162, Mapped, Some [0x1d158; 0x1d165; 0x1d170]); (0x1d163, 0x1d163, Mapped, Some [0x1d158; 0x1d165; 0x1d171]); (0x1d164, 0x1d164, Mapped, Some [0x1d158; 0x1d165; 0x1d172]);
   (0x1d165, 0x1d172, Valid, Some []); (0x1d173, 0x1d17a, Disallowed, None); (0x1d17b, 0x1d1ba, Valid, Some []);
   (0x1d1bb, 0x1d1bb, Mapped, Some [0x1d1b9; 0x1d165]); (0x1d1bc, 0x1d1bc, Mapped, Some [0x1d1ba; 0x1d165]); (0x1d1bd, 0x1d1bd, Mapped, Some [0x1d1b9; 0x1d165; 0x1d16e]);
   (0x1d1be, 0x1d1be, Mapped, Some [0x1d1ba; 0x1d165; 0x1d16e]); (0x1d1bf, 0x1d1bf, Mapped, Some [0x1d1b9; 0x1d165; 0x1d16f]); (0x1d1c0, 0x1d1c0, Mapped, Some [0x1d1ba; 0x1d165; 0x1d16f]);
   (0x1d1c1, 0x1d1dd, Valid, Some []); (0x1d1de, 0x1d1e8, Valid, Some []); (0x1d1e9, 0x1d1ff, Disallowed, None);
   (0x1d200, 0x1d245, Valid, Some []); (0x1d246, 0x1d2df, Disallowed, None); (0x1d2e0, 0x1d2f3, Valid, Some []);
   (0x1d2f4, 0x1d2ff, Disallowed, None); (0x1d300, 0x1d356, Valid, Some []); (0x1d357, 0x1d35f, Disallowed, None);
   (0x1d360, 0x1d371, Valid, Some []); (0x1d372, 0x1d378, Valid, Some []); (0x1d379, 0x1d3ff, Disallowed, None);
   (0x1d400, 0x1d400, Mapped, Some [0x61]); (0x1d401, 0x1d401, Mapped, Some [0x62]); (0x1d402, 0x1d402, Mapped, Some [0x63]);
   (0x1d403, 0x1d403, Mapped, Some [0x64]); (0x1d404, 0x1d404, Mapped, Some [0x65]); (0x1d405, 0x1d405, Mapped, Some [0x66]);
   (0x1d406, 0x1d406, Mapped, Some [0x67]); (0x1d407, 0x1d407, Mapped, Some [0x68]); (0x1d408, 0x1d408, Mapped, Some [0x69]);
   (0x1d409, 0x1d409, Mapped, Some [0x6a]); (0x1d40a, 0x1d40a, Mapped, Some [0x6b]); (0x1d40b, 0x1d40b, Mapped, Some [0x6c]);
   (0x1d40c, 0x1d40c, Mapped, Some [0x6d]); (0x1d40d, 0x1d40d, Mapped, Some [0x6e]); (0x1d40e, 0x1d40e, Mapped, Some [0x6f]);
   (0x1d40f, 0x1d40f, Mapped, Some [0x70]); (0x1d410, 0x1d410, Mapped, Some [0x71]); (0x1d411, 0x1d411, Mapped, Some [0x72]);
   (0x1d412, 0x1d412, Mapped, Some [0x73]); (0x1d413, 0x1d413, Mapped, Some [0x74]); (0x1d414, 0x1d414, Mapped, Some [0x75]);
   (0x1d415, 0x1d415, Mapped, Some [0x76]); (0x1d416, 0x1d416, Mapped, Some [0x77]); (0x1d417, 0x1d417, Mapped, Some [0x78]);
   (0x1d418, 0x1d418, Mapped, Some [0x79]); (0x1d419, 0x1d419, Mapped, Some [0x7a]); (0x1d41a, 0x1d41a, Mapped, Some [0x61]);
   (0x1d41b, 0x1d41b, Mapped, Some [0x62]); (0x1d41c, 0x1d41c, Mapped, Some [0x63]); (0x1d41d, 0x1d41d, Mapped, Some [0x64]);
   (0x1d41e, 0x1d41e, Mapped, Some [0x65]); (0x1d41f, 0x1d41f, Mapped, Some [0x66]); (0x1d420, 0x1d420, Mapped, Some [0x67]);
   (0x1d421, 0x1d421, Mapped, Some [0x68]); (0x1d422, 0x1d422, Mapped, Some [0x69]); (0x1d423, 0x1d423, Mapped, Some [0x6a]);
   (0x1d424, 0x1d424, Mapped, Some [0x6b]); (0x1d425, 0x1d425, Mapped, Some [0x6c]); (0x1d426, 0x1d426, Mapped, Some [0x6d]);
   (0x1d427, 0x1d427, Mapped, Some [0x6e]); (0x1d428, 0x1d428, Mapped, Some [0x6f]); (0x1d429, 0x1d429, Mapped, Some [0x70]);
   (0x1d42a, 0x1d42a, Mapped, Some [0x71]); (0x1d42b, 0x1d42b, Mapped, Some [0x72]); (0x1d42c, 0x1d42c, Mapped, Some [0x73]);
   (0x1d42d, 0x1d42d, Mapped, Some [0x74]); (0x1d42e, 0x1d42e, Mapped, Some [0x75]); (0x1d42f, 0x1d42f, Mapped, Some [0x76]);
   (0x1d430, 0x1d430, Mapped, Some [0x77]); (0x1d431, 0x1d431, Mapped, Some [0x78]); (0x1d432, 0x1d432, Mapped, Some [0x79]);
   (0x1d433, 0x1d433, Mapped, Some [0x7a]); (0x1d434, 0x1d434, Mapped, Some [0x61]); (0x1d435, 0x1d435, Mapped, Some [0x62]);
   (0x1d436, 0x1d436, Mapped, Some [0x63]); (0x1d437, 0x1d437, Mapped, Some [0x64]); (0x1d438, 0x1d438, Mapped, Some [0x65]);
   (0x1d439, 0x1d439, Mapped, Some [0x66]); (0x1d43a, 0x1d43a, Mapped, Some [0x67]); (0x1d43b, 0x1d43b, Mapped, Some [0x68]);
   (0x1d43c, 0x1d43c, Mapped, Some [0x69]); (0x1d43d, 0x1d43d, Mapped, Some [0x6a]); (0x1d43e, 0x1d43e, Mapped, Some [0x6b]);
   (0x1d43f, 0x1d43f, Mapped, Some [0x6c]); (0x1d440, 0x1d440, Mapped, Some [0x6d]); (0x1d441, 0x1d441, Mapped, Some [0x6e]);
   (0x1d442, 0x1d442, Mapped, Some [0x6f]); (0x1d443, 0x1d443, Mapped, Some [0x70]); (0x1d444, 0x1d444, Mapped, Some [0x71]);
   (0x1d445, 0x1d445, Mapped, Some [0x72]); (0x1d446, 0x1d446, Mapped, Some [0x73]); (0x1d447, 0x1d447, Mapped, Some [0x74]);
   (0x1d448, 0x1d448, Mapped, Some [0x75]); (0x1d449, 0x1d449, Mapped, Some [0x76]); (0x1d44a, 0x1d44a, Mapped, Some [0x77]);
   (0x1d44b, 0x1d44b, Mapped, Some [0x78]); (0x1d44c, 0x1d44c, Mapped, Some [0x79]); (0x1d44d, 0x1d44d, Mapped, Some [0x7a]);
   (0x1d44e, 0x1d44e, Mapped, Some [0x61]); (0x1d44f, 0x1d44f, Mapped, Some [0x62]); (0x1d450, 0x1d450, Mapped, Some [0x63]);
   (0x1d451, 0x1d451, Mapped, Some [0x64]); (0x1d452, 0x1d452, Mapped, Some [0x65]); (0x1d453, 0x1d453, Mapped, Some [0x66]);
   (0x1d454, 0x1d454, Mapped, Some [0x67]); (0x1d455, 0x1d455, Disallowed, None); (0x1d456, 0x1d456, Mapped, Some [0x69]);
   (0x1d457, 0x1d457, Mapped, Some [0x6a]); (0x1d458, 0x1d458, Mapped, Some [0x6b]); (0x1d459, 0x1d459, Mapped, Some [0x6c]);
   (0x1d45a, 0x1d45a, Mapped, Some [0x6d]); (0x1d45b, 0x1d45b, Mapped, Some [0x6e]); (0x1d45c, 0x1d45c, Mapped, Some [0x6f]);
   (0x1d45d, 0x1d45d, Mapped, Some [0x70]); (0x1d45e, 0x1d45e, Mapped, Some [0x71]); (0x1d45f, 0x1d45f, Mapped, Some [0x72]);
   (0x1d460, 0x1d460, Mapped, Some [0x73]); (0x1d461, 0x1d461, Mapped, Some [0x74]); (0x1d462, 0x1d462, Mapped, Some [0x75]);
   (0x1d463, 0x1d463, Mapped, Some [0x76]); (0x1d464, 0x1d464, Mapped, Some [0x77]); (0x1d465, 0x1d465, Mapped, Some [0x78]);
   (0x1d466, 0x1d466, Mapped, Some [0x79]); (0x1d467, 0x1d467, Mapped, Some [0x7a]); (0x1d468, 0x1d468, Mapped, Some [0x61]);
   (0x1d469, 0x1d469, Mapped, Some [0x62]); (0x1d46a, 0x1d46a, Mapped, Some [0x63]); (0x1d46b, 0x1d46b, Mapped, Some [0x64]);
   (0x1d46c, 0x1d46c, Mapped, Some [0x65]); (0x1d46d, 0x1d46d, Mapped, Some [0x66]); (0x1d46e, 0x1d46e, Mapped, Some [0x67]);
   (0x1d46f, 0x1d46f, Mapped, Some [0x68]); (0x1d470, 0x1d470, Mapped, Some [0x69]); (0x1d471, 0x1d471, Mapped, Some [0x6a]);
   (0x1d472, 0x1d472, Mapped, Some [0x6b]); (0x1d473, 0x1d473, Mapped, Some [0x6c]); (0x1d474, 0x1d474, Mapped, Some [0x6d]);
   (0x1d475, 0x1d475, Mapped, Some [0x6e]); (0x1d476, 0x1d476, Mapped, Some [0x6f]); (0x1d477, 0x1d477, Mapped, Some [0x70]);
   (0x1d478, 0x1d478, Mapped, Some [0x71]); (0x1d479, 0x1d479, Mapped, Some [0x72]); (0x1d47a, 0x1d47a, Mapped, Some [0x73]);
   (0x1d47b, 0x1d47b, Mapped, Some [0x74]); (0x1d47c, 0x1d47c, Mapped, Some [0x75]); (0x1d47d, 0x1d47d, Mapped, Some [0x76]);
   (0x1d47e, 0x1d47e, Mapped, Some [0x77]); (0x1d47f, 0x1d47f, Mapped, Some [0x78]); (0x1d480, 0x1d480, Mapped, Some [0x79]);
   (0x1d481, 0x1d481, Mapped, Some [0x7a]); (0x1d482, 0x1d482, Mapped, Some [0x61]); (0x1d483, 0x1d483, Mapped, Some [0x62]);
   (0x1d484, 0x1d484, Mapped, Some [0x63]); (0x1d485, 0x1d485, Mapped, Some [0x64]); (0x1d486, 0x1d486, Mapped, Some [0x65]);
   (0x1d487, 0x1d487, Mapped, Some [0x66]); (0x1d488, 0x1d488, Mapped, Some [0x67]); (0x1d489, 0x1d489, Mapped, Some [0x68]);
   (0x1d48a, 0x1d48a, Mapped, Some [0x69]); (0x1d48b, 0x1d48b, Mapped, Some [0x6a]); (0x1d48c, 0x1d48c, Mapped, Some [0x6b]);
   (0x1d48d, 0x1d48d, Mapped, Some [0x6c]); (0x1d48e, 0x1d48e, Mapped, Some [0x6d]); (0x1d48f, 0x1d48f, Mapped, Some [0x6e]);
   (0x1d490, 0x1d490, Mapped, Some [0x6f]); (0x1d491, 0x1d491, Mapped, Some [0x70]); (0x1d492, 0x1d492, Mapped, Some [0x71]);
   (0x1d493, 0x1d493, Mapped, Some [0x72]); (0x1d494, 0x1d494, Mapped, Some [0x73]); (0x1d495, 0x1d495, Mapped, Some [0x74]);
   (0x1d496, 0x1d496, Mapped, Some [0x75]); (0x1d497, 0x1d497, Mapped, Some [0x76]); (0x1d498, 0x1d498, Mapped, Some [0x77]);
   (0x1d499, 0x1d499, Mapped, Some [0x78]); (0x1d49a, 0x1d49a, Mapped, Some [0x79]); (0x1d49b, 0x1d49b, Mapped, Some [0x7a]);
   (0x1d49c, 0x1d49c, Mapped, Some [0x61]); (0x1d49d, 0x1d49d, Disallowed, None); (0x1d49e, 0x1d49e, Mapped, Some [0x63]);
   (0x1d49f, 0x1d49f, Mapped, Some [0x64]); (0x1d4a0, 0x1d4a1, Disallowed, None); (0x1d4a2, 0x1d4a2, Mapped, Some [0x67]);
   (0x1d4a3, 0x1d4a4, Disallowed, None); (0x1d4a5, 0x1d4a5, Mapped, Some [0x6a]); (0x1d4a6, 0x1d4a6, Mapped, Some [0x6b]);
   (0x1d4a7, 0x1d4a8, Disallowed, None); (0x1d4a9, 0x1d4a9, Mapped, Some [0x6e]); (0x1d4aa, 0x1d4aa, Mapped, Some [0x6f]);
   (0x1d4ab, 0x1d4ab, Mapped, Some [0x70]); (0x1d4ac, 0x1d4ac, Mapped, Some [0x71]); (0x1d4ad, 0x1d4ad, Disallowed, None);
   (0x1d4ae, 0x1d4ae, Mapped, Some [0x73]); (0x1d4af, 0x1d4af, Mapped, Some [0x74]); (0x1d4b0, 0x1d4b0, Mapped, Some [0x75]);
   (0x1d4b1, 0x1d4b1, Mapped, Some [0x76]); (0x1d4b2, 0x1d4b2, Mapped, Some [0x77]); (0x1d4b3, 0x1d4b3, Mapped, Some [0x78]);
   (0x1d4b4, 0x1d4b4, Mapped, Some [0x79]); (0x1d4b5, 0x1d4b5, Mapped, Some [0x7a]); (0x1d4b6, 0x1d4b6, Mapped, Some [0x61]);
   (0x1d4b7, 0x1d4b7, Mapped, Some [0x62]); (0x1d4b8, 0x1d4b8, Mapped, Some [0x63]); (0x1d4b9, 0x1d4b9, Mapped, Some [0x64]);
   (0x1d4ba, 0x1d4ba, Disallowed, None); (0x1d4bb, 0x1d4bb, Mapped, Some [0x66]); (0x1d4bc, 0x1d4bc, Disallowed, None);
   (0x1d4bd, 0x1d4bd, Mapped, Some [0x68]); (0x1d4be, 0x1d4be, Mapped, Some [0x69]); (0x1d4bf, 0x1d4bf, Mapped, Some [0x6a]);
   (0x1d4c0, 0x1d4c0, Mapped, Some [0x6b]); (0x1d4c1, 0x1d4c1, Mapped, Some [0x6c]); (0x1d4c2, 0x1d4c2, Mapped, Some [0x6d]);
   (0x1d4c3, 0x1d4c3, Mapped, Some [0x6e]); (0x1d4c4, 0x1d4c4, Disallowed, None); (0x1d4c5, 0x1d4c5, Mapped, Some [0x70]);
   (0x1d4c6, 0x1d4c6, Mapped, Some [0x71]); (0x1d4c7, 0x1d4c7, Mapped, Some [0x72]); (0x1d4c8, 0x1d4c8, Mapped, Some [0x73]);
   (0x1d4c9, 0x1d4c9, Mapped, Some [0x74]); (0x1d4ca, 0x1d4ca, Mapped, Some [0x75]); (0x1d4cb, 0x1d4cb, Mapped, Some [0x76]);
   (0x1d4cc, 0x1d4cc, Mapped, Some [0x77]); (0x1d4cd, 0x1d4cd, Mapped, Some [0x78]); (0x1d4ce, 0x1d4ce, Mapped, Some [0x79]);
   (0x1d4cf, 0x1d4cf, Mapped, Some [0x7a]); (0x1d4d0, 0x1d4d0, Mapped, Some [0x61]); (0x1d4d1, 0x1d4d1, Mapped, Some [0x62]);
   (0x1d4d2, 0x1d4d2, Mapped, Some [0x63]); (0x1d4d3, 0x1d4d3, Mapped, Some [0x64]); (0x1d4d4, 0x1d4d4, Mapped, Some [0x65]);
   (0x1d4d5, 0x1d4d5, Mapped, Some [0x66]); (0x1d4d6, 0x1d4d6, Mapped, Some [0x67]); (0x1d4d7, 0x1d4d7, Mapped, Some [0x68]);
   (0x1d4d8, 0x1d4d8, Mapped, Some [0x69]); (0x1d4d9, 0x1d4d9, Mapped, Some [0x6a]); (0x1d4da, 0x1d4da, Mapped, Some [0x6b]);
   (0x1d4db, 0x1d4db, Mapped, Some [0x6c]); (0x1d4dc, 0x1d4dc, Mapped, Some [0x6d]); (0x1d4dd, 0x1d4dd, Mapped, Some [0x6e]);
   (0x1d4de, 0x1d4de, Mapped, Some [0x6f]); (0x1d4df, 0x1d4df, Mapped, Some [0x70]); (0x1d4e0, 0x1d4e0, Mapped, Some [0x71]);
   (0x1d4e1, 0x1d4e1, Mapped, Some [0x72]); (0x1d4e2, 0x1d4e2, Mapped, Some [0x73]); (0x1d4e3, 0x1d4e3, Mapped, Some [0x74]);
   (0x1d4e4, 0x1d4e4, Mapped, Some [0x75]); (0x1d4e5, 0x1d4e5, Mapped, Some [0x76]); (0x1d4e6, 0x1d4e6, Mapped, Some [0x77]);
   (0x1d4e7, 0x1d4e7, Mapped, Some [0x78]); (0x1d4e8, 0x1d4e8, Mapped, Some [0x79]); (0x1d4e9, 0x1d4e9, Mapped, Some [0x7a]);
   (0x1d4ea, 0x1d4ea, Mapped, Some [0x61]); (0x1d4eb, 0x1d4eb, Mapped, Some [0x62]); (0x1d4ec, 0x1d4ec, Mapped, Some [0x63]);
   (0x1d4ed, 0x1d4ed, Mapped, Some [0x64]); (0x1d4ee, 0x1d4ee, Mapped, Some [0x65]); (0x1d4ef, 0x1d4ef, Mapped, Some [0x66]);
   (0x1d4f0, 0x1d4f0, Mapped, Some [0x67]); (0x1d4f1, 0x1d4f1, Mapped, Some [0x68]); (0x1d4f2, 0x1d4f2, Mapped, Some [0x69]);
   (0x1d4f3, 0x1d4f3, Mapped, Some [0x6a]); (0x1d4f4, 0x1d4f4, Mapped, Some [0x6b]); (0x1d4f5, 0x1d4f5, Mapped, Some [0x6c]);
   (0x1d4f6, 0x1d4f6, Mapped, Some [0x6d]); (0x1d4f7, 0x1d4f7, Mapped, Some [0x6e]); (0x1d4f8, 0x1d4f8, Mapped, Some [0x6f]);
   (0x1d4f9, 0x1d4f9, Mapped, Some [0x70]); (0x1d4fa, 0x1d4fa, Mapped, Some [0x71]); (0x1d4fb, 0x1d4fb, Mapped, Some [0x72]);
   (0x1d4fc, 0x1d4fc, Mapped, Some [0x73]); (0x1d4fd, 0x1d4fd, Mapped, Some [0x74]); (0x1d4fe, 0x1d4fe, Mapped, Some [0x75]);
   (0x1d4ff, 0x1d4ff, Mapped, Some [0x76]); (0x1d500, 0x1d500, Mapped, Some [0x77]); (0x1d501, 0x1d501, Mapped, Some [0x78]);
   (0x1d502, 0x1d502, Mapped, Some [0x79]); (0x1d503, 0x1d503, Mapped, Some [0x7a]); (0x1d504, 0x1d504, Mapped, Some [0x61]);
   (0x1d505, 0x1d505, Mapped, Some [0x62]); (0x1d506, 0x1d506, Disallowed, None); (0x1d507, 0x1d507, Mapped, Some [0x64]);
   (0x1d508, 0x1d508, Mapped, Some [0x65]); (0x1d509, 0x1d509, Mapped, Some [0x66]); (0x1d50a, 0x1d50a, Mapped, Some [0x67]);
   (0x1d50b, 0x1d50c, Disallowed, None); (0x1d50d, 0x1d50d, Mapped, Some [0x6a]); (0x1d50e, 0x1d50e, Mapped, Some [0x6b]);
   (0x1d50f, 0x1d50f, Mapped, Some [0x6c]); (0x1d510, 0x1d510, Mapped, Some [0x6d]); (0x1d511, 0x1d511, Mapped, Some [0x6e]);
   (0x1d512, 0x1d512, Mapped, Some [0x6f]); (0x1d513, 0x1d513, Mapped, Some [0x70]); (0x1d514, 0x1d514, Mapped, Some [0x71]);
   (0x1d515, 0x1d515, Disallowed, None); (0x1d516, 0x1d516, Mapped, Some [0x73]); (0x1d517, 0x1d517, Mapped, Some [0x74]);
   (0x1d518, 0x1d518, Mapped, Some [0x75]); (0x1d519, 0x1d519, Mapped, Some [0x76]); (0x1d51a, 0x1d51a, Mapped, Some [0x77]);
   (0x1d51b, 0x1d51b, Mapped, Some [0x78]); (0x1d51c, 0x1d51c, Mapped, Some [0x79]); (0x1d51d, 0x1d51d, Disallowed, None);
   (0x1d51e, 0x1d51e, Mapped, Some [0x61]); (0x1d51f, 0x1d51f, Mapped, Some [0x62]); (0x1d520, 0x1d520, Mapped, Some [0x63]);
   (0x1d521, 0x1d521, Mapped, Some [0x64]); (0x1d522, 0x1d522, Mapped, Some [0x65]); (0x1d523, 0x1d523, Mapped, Some [0x66]);
   (0x1d524, 0x1d524, Mapped, Some [0x67]); (0x1d525, 0x1d525, Mapped, Some [0x68]); (0x1d526, 0x1d526, Mapped, Some [0x69]);
   (0x1d527, 0x1d527, Mapped, Some [0x6a]); (0x1d528, 0x1d528, Mapped, Some [0x6b]); (0x1d529, 0x1d529, Mapped, Some [0x6c]);
   (0x1d52a, 0x1d52a, Mapped, Some [0x6d]); (0x1d52b, 0x1d52b, Mapped, Some [0x6e]); (0x1d52c, 0x1d52c, Mapped, Some [0x6f]);
   (0x1d52d, 0x1d52d, Mapped, Some [0x70]); (0x1d52e, 0x1d52e, Mapped, Some [0x71]); (0x1d52f, 0x1d52f, Mapped, Some [0x72]);
   (0x1d530, 0x1d530, Mapped, Some [0x73]); (0x1d531, 0x1d531, Mapped, Some [0x74]); (0x1d532, 0x1d532, Mapped, Some [0x75]);
   (0x1d533, 0x1d533, Mapped, Some [0x76]); (0x1d534, 0x1d534, Mapped, Some [0x77]); (0x1d535, 0x1d535, Mapped, Some [0x78]);
   (0x1d536, 0x1d536, Mapped, Some [0x79]); (0x1d537, 0x1d537, Mapped, Some [0x7a]); (0x1d538, 0x1d538, Mapped, Some [0x61]);
   (0x1d539, 0x1d539, Mapped, Some [0x62]); (0x1d53a, 0x1d53a, Disallowed, None); (0x1d53b, 0x1d53b, Mapped, Some [0x64]);
   (0x1d53c, 0x1d53c, Mapped, Some [0x65]); (0x1d53d, 0x1d53d, Mapped, Some [0x66]); (0x1d53e, 0x1d53e, Mapped, Some [0x67]);
   (0x1d53f, 0x1d53f, Disallowed, None); (0x1d540, 0x1d540, Mapped, Some [0x69]); (0x1d541, 0x1d541, Mapped, Some [0x6a]);
   (0x1d542, 0x1d542, Mapped, Some [0x6b]); (0x1d543, 0x1d543, Mapped, Some [0x6c]); (0x1d544, 0x1d544, Mapped, Some [0x6d]);
   (0x1d545, 0x1d545, Disallowed, None); (0x1d546, 0x1d546, Mapped, Some [0x6f]); (0x1d547, 0x1d549, Disallowed, None);
   (0x1d54a, 0x1d54a, Mapped, Some [0x73]); (0x1d54b, 0x1d54b, Mapped, Some [0x74]); (0x1d54c, 0x1d54c, Mapped, Some [0x75]);
   (0x1d54d, 0x1d54d, Mapped, Some [0x76]); (0x1d54e, 0x1d54e, Mapped, Some [0x77]); (0x1d54f, 0x1d54f, Mapped, Some [0x78]);
   (0x1d550, 0x1d550, Mapped, Some [0x79]); (0x1d551, 0x1d551, Disallowed, None); (0x1d552, 0x1d552, Mapped, Some [0x61]);
   (0x1d553, 0x1d553, Mapped, Some [0x62]); (0x1d554, 0x1d554, Mapped, Some [0x63]); (0x1d555, 0x1d555, Mapped, Some [0x64]);
   (0x1d556, 0x1d556, Mapped, Some [0x65]); (0x1d557, 0x1d557, Mapped, Some [0x66]); (0x1d558, 0x1d558, Mapped, Some [0x67]);
   (0x1d559, 0x1d559, Mapped, Some [0x68]); (0x1d55a, 0x1d55a, Mapped, Some [0x69]); (0x1d55b, 0x1d55b, Mapped, Some [0x6a]);
   (0x1d55c, 0x1d55c, Mapped, Some [0x6b]); (0x1d55d, 0x1d55d, Mapped, Some [0x6c]); (0x1d55e, 0x1d55e, Mapped, Some [0x6d]);
   (0x1d55f, 0x1d55f, Mapped, Some [0x6e]); (0x1d560, 0x1d560, Mapped, Some [0x6f]); (0x1d561, 0x1d561, Mapped, Some [0x70]);
   (0x1d562, 0x1d562, Mapped, Some [0x71]); (0x1d563, 0x1d563, Mapped, Some [0x72]); (0x1d564, 0x1d564, Mapped, Some [0x73]);
   (0x1d565, 0x1d565, Mapped, Some [0x74]); (0x1d566, 0x1d566, Mapped, Some [0x75]); (0x1d567, 0x1d567, Mapped, Some [0x76]);
   (0x1d568, 0x1d568, Mapped, Some [0x77]); (0x1d569, 0x1d569, Mapped, Some [0x78]); (0x1d56a, 0x1d56a, Mapped, Some [0x79]);
   (0x1d56b, 0x1d56b, Mapped, Some [0x7a]); (0x1d56c, 0x1d56c, Mapped, Some [0x61]); (0x1d56d, 0x1d56d, Mapped, Some [0x62]);
   (0x1d56e, 0x1d56e, Mapped, Some [0x63]); (0x1d56f, 0x1d56f, Mapped, Some [0x64]); (0x1d570, 0x1d570, Mapped, Some [0x65]);
   (0x1d571, 0x1d571, Mapped, Some [0x66]); (0x1d572, 0x1d572, Mapped, Some [0x67]); (0x1d573, 0x1d573, Mapped, Some [0x68]);
   (0x1d574, 0x1d574, Mapped, Some [0x69]); (0x1d575, 0x1d575, Mapped, Some [0x6a]); (0x1d576, 0x1d576, Mapped, Some [0x6b]);
   (0x1d577, 0x1d577, Mapped, Some [0x6c]); (0x1d578, 0x1d578, Mapped, Some [0x6d]); (0x1d579, 0x1d579, Mapped, Some [0x6e]);
   (0x1d57a, 0x1d57a, Mapped, Some [0x6f]); (0x1d57b, 0x1d57b, Mapped, Some [0x70]); (0x1d57c, 0x1d57c, Mapped, Some [0x71]);
   (0x1d57d, 0x1d57d, Mapped, Some [0x72]); (0x1d57e, 0x1d57e, Mapped, Some [0x73]); (0x1d57f, 0x1d57f, Mapped, Some [0x74]);
   (0x1d580, 0x1d580, Mapped, Some [0x75]); (0x1d581, 0x1d581, Mapped, Some [0x76]); (0x1d582, 0x1d582, Mapped, Some [0x77]);
   (0x1d583, 0x1d583, Mapped, Some [0x78]); (0x1d584, 0x1d584, Mapped, Some [0x79]); (0x1d585, 0x1d585, Mapped, Some [0x7a]);
   (0x1d586, 0x1d586, Mapped, Some [0x61]); (0x1d587, 0x1d587, Mapped, Some [0x62]); (0x1d588, 0x1d588, Mapped, Some [0x63]);
   (0x1d589, 0x1d589, Mapped, Some [0x64]); (0x1d58a, 0x1d58a, Mapped, Some [0x65]); (0x1d58b, 0x1d58b, Mapped, Some [0x66]);
   (0x1d58c, 0x1d58c, Mapped, Some [0x67]); (0x1d58d, 0x1d58d, Mapped, Some [0x68]); (0x1d58e, 0x1d58e, Mapped, Some [0x69]);
   (0x1d58f, 0x1d58f, Mapped, Some [0x6a]); (0x1d590, 0x1d590, Mapped, Some [0x6b]); (0x1d591, 0x1d591, Mapped, Some [0x6c]);
   (0x1d592, 0x1d592, Mapped, Some [0x6d]); (0x1d593, 0x1d593, Mapped, Some [0x6e]); (0x1d594, 0x1d594, Mapped, Some [0x6f]);
   (0x1d595, 0x1d595, Mapped, Some [0x70]); (0x1d596, 0x1d596, Mapped, Some [0x71]); (0x1d597, 0x1d597, Mapped, Some [0x72]);
   (0x1d598, 0x1d598, Mapped, Some [0x73]); (0x1d599, 0x1d599, Mapped, Some [0x74]); (0x1d59a, 0x1d59a, Mapped, Some [0x75]);
   (0x1d59b, 0x1d59b, Mapped, Some [0x76]); (0x1d59c, 0x1d59c, Mapped, Some [0x77]); (0x1d59d, 0x1d59d, Mapped, Some [0x78]);
   (0x1d59e, 0x1d59e, Mapped, Some [0x79]); (0x1d59f, 0x1d59f, Mapped, Some [0x7a]); (0x1d5a0, 0x1d5a0, Mapped, Some [0x61]);
   (0x1d5a1, 0x1d5a1, Mapped, Some [0x62]); (0x1d5a2, 0x1d5a2, Mapped, Some [0x63]); (0x1d5a3, 0x1d5a3, Mapped, Some [0x64]);
   (0x1d5a4, 0x1d5a4, Mapped, Some [0x65]); (0x1d5a5, 0x1d5a5, Mapped, Some [0x66]); (0x1d5a6, 0x1d5a6, Mapped, Some [0x67]);
   (0x1d5a7, 0x1d5a7, Mapped, Some [0x68]); (0x1d5a8, 0x1d5a8, Mapped, Some [0x69]); (0x1d5a9, 0x1d5a9, Mapped, Some [0x6a]);
   (0x1d5aa, 0x1d5aa, Mapped, Some [0x6b]); (0x1d5ab, 0x1d5ab, Mapped, Some [0x6c]); (0x1d5ac, 0x1d5ac, Mapped, Some [0x6d]);
   (0x1d5ad, 0x1d5ad, Mapped, Some [0x6e]); (0x1d5ae, 0x1d5ae, Mapped, Some [0x6f]); (0x1d5af, 0x1d5af, Mapped, Some [0x70]);
   (0x1d5b0, 0x1d5b0, Mapped, Some [0x71]); (0x1d5b1, 0x1d5b1, Mapped, Some [0x72]); (0x1d5b2, 0x1d5b2, Mapped, Some [0x73]);
   (0x1d5b3, 0x1d5b3, Mapped, Some [0x74]); (0x1d5b4, 0x1d5b4, Mapped, Some [0x75]); (0x1d5b5, 0x1d5b5, Mapped, Some [0x76]);
   (0x1d5b6, 0x1d5b6, Mapped, Some [0x77]); (0x1d5b7, 0x1d5b7, Mapped, Some [0x78]); (0x1d5b8, 0x1d5b8, Mapped, Some [0x79]);
   (0x1d5b9, 0x1d5b9, Mapped, Some [0x7a]); (0x1d5ba, 0x1d5ba, Mapped, Some [0x61]); (0x1d5bb, 0x1d5bb, Mapped, Some [0x62]);
   (0x1d5bc, 0x1d5bc, Mapped, Some [0x63]); (0x1d5bd, 0x1d5bd, Mapped, Some [0x64]); (0x1d5be, 0x1d5be, Mapped, Some [0x65]);
   (0x1d5bf, 0x1d5bf, Mapped, Some [0x66]); (0x1d5c0, 0x1d5c0, Mapped, Some [0x67]); (0x1d5c1, 0x1d5c1, Mapped, Some [0x68]);
   (0x1d5c2, 0x1d5c2, Mapped, Some [0x69]); (0x1d5c3, 0x1d5c3, Mapped, Some [0x6a]); (0x1d5c4, 0x1d5c4, Mapped, Some [0x6b]);
   (0x1d5c5, 0x1d5c5, Mapped, Some [0x6c]); (0x1d5c6, 0x1d5c6, Mapped, Some [0x6d]); (0x1d5c7, 0x1d5c7, Mapped, Some [0x6e]);
   (0x1d5c8, 0x1d5c8, Mapped, Some [0x6f]); (0x1d5c9, 0x1d5c9, Mapped, Some [0x70]); (0x1d5ca, 0x1d5ca, Mapped, Some [0x71]);
   (0x1d5cb, 0x1d5cb, Mapped, Some [0x72]); (0x1d5cc, 0x1d5cc, Mapped, Some [0x73]); (0x1d5cd, 0x1d5cd, Mapped, Some [0x74]);
   (0x1d5ce, 0x1d5ce, Mapped, Some [0x75]); (0x1d5cf, 0x1d5cf, Mapped, Some [0x76]); (0x1d5d0, 0x1d5d0, Mapped, Some [0x77]);
   (0x1d5d1, 0x1d5d1, Mapped, Some [0x78]); (0x1d5d2, 0x1d5d2, Mapped, Some [0x79]); (0x1d5d3, 0x1d5d3, Mapped, Some [0x7a]);
   (0x1d5d4, 0x1d5d4, Mapped, Some [0x61]); (0x1d5d5, 0x1d5d5, Mapped, Some [0x62]); (0x1d5d6, 0x1d5d6, Mapped, Some [0x63]);
   (0x1d5d7, 0x1d5d7, Mapped, Some [0x64]); (0x1d5d8, 0x1d5d8, Mapped, Some [0x65]); (0x1d5d9, 0x1d5d9, Mapped, Some [0x66]);
   (0x1d5da, 0x1d5da, Mapped, Some [0x67]); (0x1d5db, 0x1d5db, Mapped, Some [0x68]); (0x1d5dc, 0x1d5dc, Mapped, Some [0x69]);
   (0x1d5dd, 0x1d5dd, Mapped, Some [0x6a]); (0x1d5de, 0x1d5de, Mapped, Some [0x6b]); (0x1d5df, 0x1d5df, Mapped, Some [0x6c]);
   (0x1d5e0, 0x1d5e0, Mapped, Some [0x6d]); (0x1d5e1, 0x1d5e1, Mapped, Some [0x6e]); (0x1d5e2, 0x1d5e2, Mapped, Some [0x6f]);
   (0x1d5e3, 0x1d5e3, Mapped, Some [0x70]); (0x1d5e4, 0x1d5e4, Mapped, Some [0x71]); (0x1d5e5, 0x1d5e5, Mapped, Some [0x72]);
   (0x1d5e6, 0x1d5e6, Mapped, Some [0x73]); (0x1d5e7, 0x1d5e7, Mapped, Some [0x74]); (0x1d5e8, 0x1d5e8, Mapped, Some [0x75]);
   (0x1d5e9, 0x1d5e9, Mapped, Some [0x76]); (0x1d5ea, 0x1d5ea, Mapped, Some [0x77]); (0x1d5eb, 0x1d5eb, Mapped, Some [0x78]);
   (0x1d5ec, 0x1d5ec, Mapped, Some [0x79]); (0x1d5ed, 0x1d5ed, Mapped, Some [0x7a]); (0x1d5ee, 0x1d5ee, Mapped, Some [0x61]);
   (0x1d5ef, 0x1d5ef, Mapped, Some [0x62]); (0x1d5f0, 0x1d5f0, Mapped, Some [0x63]); (0x1d5f1, 0x1d5f1, Mapped, Some [0x64]);
   (0x1d5f2, 0x1d5f2, Mapped, Some [0x65]); (0x1d5f3, 0x1d5f3, Mapped, Some [0x66]); (0x1d5f4, 0x1d5f4, Mapped, Some [0x67]);
   (0x1d5f5, 0x1d5f5, Mapped, Some [0x68]); (0x1d5f6, 0x1d5f6, Mapped, Some [0x69]); (0x1d5f7, 0x1d5f7, Mapped, Some [0x6a]);
   (0x1d5f8, 0x1d5f8, Mapped, Some [0x6b]); (0x1d5f9, 0x1d5f9, Mapped, Some [0x6c]); (0x1d5fa, 0x1d5fa, Mapped, Some [0x6d]);
   (0x1d5fb, 0x1d5fb, Mapped, Some [0x6e]); (0x1d5fc, 0x1d5fc, Mapped, Some [0x6f]); (0x1d5fd, 0x1d5fd, Mapped, Some [0x70]);
   (0x1d5fe, 0x1d5fe, Mapped, Some [0x71]); (0x1d5ff, 0x1d5ff, Mapped, Some [0x72]); (0x1d600, 0x1d600, Mapped, Some [0x73]);
   (0x1d601, 0x1d601, Mapped, Some [0x74]); (0x1d602, 0x1d602, Mapped, Some [0x75]); (0x1d603, 0x1d603, Mapped, Some [0x76]);
   (0x1d604, 0x1d604, Mapped, Some [0x77]); (0x1d605, 0x1d605, Mapped, Some [0x78]); (0x1d606, 0x1d606, Mapped, Some [0x79]);
   (0x1d607, 0x1d607, Mapped, Some [0x7a]); (0x1d608, 0x1d608, Mapped, Some [0x61]); (0x1d609, 0x1d609, Mapped, Some [0x62]);
   (0x1d60a, 0x1d60a, Mapped, Some [0x63]); (0x1d60b, 0x1d60b, Mapped, Some [0x64]); (0x1d60c, 0x1d60c, Mapped, Some [0x65]);
   (0x1d60d, 0x1d60d, Mapped, Some [0x66]); (0x1d60e, 0x1d60e, Mapped, Some [0x67]); (0x1d60f, 0x1d60f, Mapped, Some [0x68]);
   (0x1d610, 0x1d610, Mapped, Some [0x69]); (0x1d611, 0x1d611, Mapped, Some [0x6a]); (0x1d612, 0x1d612, Mapped, Some [0x6b]);
   (0x1d613, 0x1d613, Mapped, Some [0x6c]); (0x1d614, 0x1d614, Mapped, Some [0x6d]); (0x1d615, 0x1d615, Mapped, Some [0x6e]);
   (0x1d616, 0x1d616, Mapped, Some [0x6f]); (0x1d617, 0x1d617, Mapped, Some [0x70]); (0x1d618, 0x1d618, Mapped, Some [0x71]);
   (0x1d619, 0x1d619, Mapped, Some [0x72]); (0x1d61a, 0x1d61a, Mapped, Some [0x73]); (0x1d61b, 0x1d61b, Mapped, Some [0x74]);
   (0x1d61c, 0x1d61c, Mapped, Some [0x75]); (0x1d61d, 0x1d61d, Mapped, Some [0x76]); (0x1d61e, 0x1d61e, Mapped, Some [0x77]);
   (0x1d61f, 0x1d61f, Mapped, Some [0x78]); (0x1d620, 0x1d620, Mapped, Some [0x79]); (0x1d621, 0x1d621, Mapped, Some [0x7a]);
   (0x1d622, 0x1d622, Mapped, Some [0x61]); (0x1d623, 0x1d623, Mapped, Some [0x62]); (0x1d624, 0x1d624, Mapped, Some [0x63]);
   (0x1d625, 0x1d625, Mapped, Some [0x64]); (0x1d626, 0x1d626, Mapped, Some [0x65]); (0x1d627, 0x1d627, Mapped, Some [0x66]);
   (0x1d628, 0x1d628, Mapped, Some [0x67]); (0x1d629, 0x1d629, Mapped, Some [0x68]); (0x1d62a, 0x1d62a, Mapped, Some [0x69]);
   (0x1d62b, 0x1d62b, Mapped, Some [0x6a]); (0x1d62c, 0x1d62c, Mapped, Some [0x6b]); (0x1d62d, 0x1d62d, Mapped, Some [0x6c]);
   (0x1d62e, 0x1d62e, Mapped, Some [0x6d]); (0x1d62f, 0x1d62f, Mapped, Some [0x6e]); (0x1d630, 0x1d630, Mapped, Some [0x6f]);
   (0x1d631, 0x1d631, Mapped, Some [0x70]); (0x1d632, 0x1d632, Mapped, Some [0x71]); (0x1d633, 0x1d633, Mapped, Some [0x72]);
   (0x1d634, 0x1d634, Mapped, Some [0x73]); (0x1d635, 0x1d635, Mapped, Some [0x74]); (0x1d636, 0x1d636, Mapped, Some [0x75]);
   (0x1d637, 0x1d637, Mapped, Some [0x76]); (0x1d638, 0x1d638, Mapped, Some [0x77]); (0x1d639, 0x1d639, Mapped, Some [0x78]);
   (0x1d63a, 0x1d63a, Mapped, Some [0x79]); (0x1d63b, 0x1d63b, Mapped, Some [0x7a]); (0x1d63c, 0x1d63c, Mapped, Some [0x61]);
   (0x1d63d, 0x1d63d, Mapped, Some [0x62]); (0x1d63e, 0x1d63e, Mapped, Some [0x63]); (0x1d63f, 0x1d63f, Mapped, Some [0x64]);
   (0x1d640, 0x1d640, Mapped, Some [0x65]); (0x1d641, 0x1d641, Mapped, Some [0x66]); (0x1d642, 0x1d642, Mapped, Some [0x67]);
   (0x1d643, 0x1d643, Mapped, Some [0x68]); (0x1d644, 0x1d644, Mapped, Some [0x69]); (0x1d645, 0x1d645, Mapped, Some [0x6a]);
   (0x1d646, 0x1d646, Mapped, Some [0x6b]); (0x1d647, 0x1d647, Mapped, Some [0x6c]); (0x1d648, 0x1d648, Mapped, Some [0x6d]);
   (0x1d649, 0x1d649, Mapped, Some [0x6e]); (0x1d64a, 0x1d64a, Mapped, Some [0x6f]); (0x1d64b, 0x1d64b, Mapped, Some [0x70]);
   (0x1d64c, 0x1d64c, Mapped, Some [0x71]); (0x1d64d, 0x1d64d, Mapped, Some [0x72]); (0x1d64e, 0x1d64e, Mapped, Some [0x73]);
   (0x1d64f, 0x1d64f, Mapped, Some [0x74]); (0x1d650, 0x1d650, Mapped, Some [0x75]); (0x1d651, 0x1d651, Mapped, Some [0x76]);
   (0x1d652, 0x1d652, Mapped, Some [0x77]); (0x1d653, 0x1d653, Mapped, Some [0x78]); (0x1d654, 0x1d654, Mapped, Some [0x79]);
   (0x1d655, 0x1d655, Mapped, Some [0x7a]); (0x1d656, 0x1d656, Mapped, Some [0x61]); (0x1d657, 0x1d657, Mapped, Some [0x62]);
   (0x1d658, 0x1d658, Mapped, Some [0x63]); (0x1d659, 0x1d659, Mapped, Some [0x64]); (0x1d65a, 0x1d65a, Mapped, Some [0x65]);
   (0x1d65b, 0x1d65b, Mapped, Some [0x66]); (0x1d65c, 0x1d65c, Mapped, Some [0x67]); (0x1d65d, 0x1d65d, Mapped, Some [0x68]);
   (0x1d65e, 0x1d65e, Mapped, Some [0x69]); (0x1d65f, 0x1d65f, Mapped, Some [0x6a]); (0x1d660, 0x1d660, Mapped, Some [0x6b]);
   (0x1d661, 0x1d661, Mapped, Some [0x6c]); (0x1d662, 0x1d662, Mapped, Some [0x6d]); (0x1d663, 0x1d663, Mapped, Some [0x6e]);
   (0x1d664, 0x1d664, Mapped, Some [0x6f]); (0x1d665, 0x1d665, Mapped, Some [0x70]); (0x1d666, 0x1d666, Mapped, Some [0x71]);
   (0x1d667, 0x1d667, Mapped, Some [0x72]); (0x1d668, 0x1d668, Mapped, Some [0x73]); (0x1d669, 0x1d669, Mapped, Some [0x74]);
   (0x1d66a, 0x1d66a, Mapped, Some [0x75]); (0x1d66b, 0x1d66b, Mapped, Some [0x76]); (0x1d66c, 0x1d66c, Mapped, Some [0x77]);
   (0x1d66d, 0x1d66d, Mapped, Some [0x78]); (0x1d66e, 0x1d66e, Mapped, Some [0x79]); (0x1d66f, 0x1d66f, Mapped, Some [0x7a]);
   (0x1d670, 0x1d670, Mapped, Some [0x61]); (0x1d671, 0x1d671, Mapped, Some [0x62]); (0x1d672, 0x1d672, Mapped, Some [0x63]);
   (0x1d673, 0x1d673, Mapped, Some [0x64]); (0x1d674, 0x1d674, Mapped, Some [0x65]); (0x1d675, 0x1d675, Mapped, Some [0x66]);
   (0x1d676, 0x1d676, Mapped, Some [0x67]); (0x1d677, 0x1d677, Mapped, Some [0x68]); (0x1d678, 0x1d678, Mapped, Some [0x69]);
   (0x1d679, 0x1d679, Mapped, Some [0x6a]); (0x1d67a, 0x1d67a, Mapped, Some [0x6b]); (0x1d67b, 0x1d67b, Mapped, Some [0x6c]);
   (0x1d67c, 0x1d67c, Mapped, Some [0x6d]); (0x1d67d, 0x1d67d, Mapped, Some [0x6e]); (0x1d67e, 0x1d67e, Mapped, Some [0x6f]);
   (0x1d67f, 0x1d67f, Mapped, Some [0x70]); (0x1d680, 0x1d680, Mapped, Some [0x71]); (0x1d681, 0x1d681, Mapped, Some [0x72]);
   (0x1d682, 0x1d682, Mapped, Some [0x73]); (0x1d683, 0x1d683, Mapped, Some [0x74]); (0x1d684, 0x1d684, Mapped, Some [0x75]);
   (0x1d685, 0x1d685, Mapped, Some [0x76]); (0x1d686, 0x1d686, Mapped, Some [0x77]); (0x1d687, 0x1d687, Mapped, Some [0x78]);
   (0x1d688, 0x1d688, Mapped, Some [0x79]); (0x1d689, 0x1d689, Mapped, Some [0x7a]); (0x1d68a, 0x1d68a, Mapped, Some [0x61]);
   (0x1d68b, 0x1d68b, Mapped, Some [0x62]); (0x1d68c, 0x1d68c, Mapped, Some [0x63]); (0x1d68d, 0x1d68d, Mapped, Some [0x64]);
   (0x1d68e, 0x1d68e, Mapped, Some [0x65]); (0x1d68f, 0x1d68f, Mapped, Some [0x66]); (0x1d690, 0x1d690, Mapped, Some [0x67]);
   (0x1d691, 0x1d691, Mapped, Some [0x68]); (0x1d692, 0x1d692, Mapped, Some [0x69]); (0x1d693, 0x1d693, Mapped, Some [0x6a]);
   (0x1d694, 0x1d694, Mapped, Some [0x6b]); (0x1d695, 0x1d695, Mapped, Some [0x6c]); (0x1d696, 0x1d696, Mapped, Some [0x6d]);
   (0x1d697, 0x1d697, Mapped, Some [0x6e]); (0x1d698, 0x1d698, Mapped, Some [0x6f]); (0x1d699, 0x1d699, Mapped, Some [0x70]);
   (0x1d69a, 0x1d69a, Mapped, Some [0x71]); (0x1d69b, 0x1d69b, Mapped, Some [0x72]); (0x1d69c, 0x1d69c, Mapped, Some [0x73]);
   (0x1d69d, 0x1d69d, Mapped, Some [0x74]); (0x1d69e, 0x1d69e, Mapped, Some [0x75]); (0x1d69f, 0x1d69f, Mapped, Some [0x76]);
   (0x1d6a0, 0x1d6a0, Mapped, Some [0x77]); (0x1d6a1, 0x1d6a1, Mapped, Some [0x78]); (0x1d6a2, 0x1d6a2, Mapped, Some [0x79]);
   (0x1d6a3, 0x1d6a3, Mapped, Some [0x7a]); (0x1d6a4, 0x1d6a4, Mapped, Some [0x131]); (0x1d6a5, 0x1d6a5, Mapped, Some [0x237]);
   (0x1d6a6, 0x1d6a7, Disallowed, None); (0x1d6a8, 0x1d6a8, Mapped, Some [0x3b1]); (0x1d6a9, 0x1d6a9, Mapped, Some [0x3b2]);
   (0x1d6aa, 0x1d6aa, Mapped, Some [0x3b3]); (0x1d6ab, 0x1d6ab, Mapped, Some [0x3b4]); (0x1d6ac, 0x1d6ac, Mapped, Some [0x3b5]);
   (0x1d6ad, 0x1d6ad, Mapped, Some [0x3b6]); (0x1d6ae, 0x1d6ae, Mapped, Some [0x3b7]); (0x1d6af, 0x1d6af, Mapped, Some [0x3b8]);
   (0x1d6b0, 0x1d6b0, Mapped, Some [0x3b9]); (0x1d6b1, 0x1d6b1, Mapped, Some [0x3ba]); (0x1d6b2, 0x1d6b2, Mapped, Some [0x3bb]);
   (0x1d6b3, 0x1d6b3, Mapped, Some [0x3bc]); (0x1d6b4, 0x1d6b4, Mapped, Some [0x3bd]); (0x1d6b5, 0x1d6b5, Mapped, Some [0x3be]);
   (0x1d6b6, 0x1d6b6, Mapped, Some [0x3bf]); (0x1d6b7, 0x1d6b7, Mapped, Some [0x3c0]); (0x1d6b8, 0x1d6b8, Mapped, Some [0x3c1]);
   (0x1d6b9, 0x1d6b9, Mapped, Some [0x3b8]); (0x1d6ba, 0x1d6ba, Mapped, Some [0x3c3]); (0x1d6bb, 0x1d6bb, Mapped, Some [0x3c4]);
   (0x1d6bc, 0x1d6bc, Mapped, Some [0x3c5]); (0x1d6bd, 0x1d6bd, Mapped, Some [0x3c6]); (0x1d6be, 0x1d6be, Mapped, Some [0x3c7]);
   (0x1d6bf, 0x1d6bf, Mapped, Some [0x3c8]); (0x1d6c0, 0x1d6c0, Mapped, Some [0x3c9]); (0x1d6c1, 0x1d6c1, Mapped, Some [0x2207]);
   (0x1d6c2, 0x1d6c2, Mapped, Some [0x3b1]); (0x1d6c3, 0x1d6c3, Mapped, Some [0x3b2]); (0x1d6c4, 0x1d6c4, Mapped, Some [0x3b3]);
   (0x1d6c5, 0x1d6c5, Mapped, Some [0x3b4]); (0x1d6c6, 0x1d6c6, Mapped, Some [0x3b5]); (0x1d6c7, 0x1d6c7, Mapped, Some [0x3b6]);
   (0x1d6c8, 0x1d6c8, Mapped, Some [0x3b7]); (0x1d6c9, 0x1d6c9, Mapped, Some [0x3b8]); (0x1d6ca, 0x1d6ca, Mapped, Some [0x3b9]);
   (0x1d6cb, 0x1d6cb, Mapped, Some [0x3ba]); (0x1d6cc, 0x1d6cc, Mapped, Some [0x3bb]); (0x1d6cd, 0x1d6cd, Mapped, Some [0x3bc]);
   (0x1d6ce, 0x1d6ce, Mapped, Some [0x3bd]); (0x1d6cf, 0x1d6cf, Mapped, Some [0x3be]); (0x1d6d0, 0x1d6d0, Mapped, Some [0x3bf]);
   (0x1d6d1, 0x1d6d1, Mapped, Some [0x3c0]); (0x1d6d2, 0x1d6d2, Mapped, Some [0x3c1]); (0x1d6d3, 0x1d6d4, Mapped, Some [0x3c3]);
   (0x1d6d5, 0x1d6d5, Mapped, Some [0x3c4]); (0x1d6d6, 0x1d6d6, Mapped, Some [0x3c5]); (0x1d6d7, 0x1d6d7, Mapped, Some [0x3c6]);
   (0x1d6d8, 0x1d6d8, Mapped, Some [0x3c7]); (0x1d6d9, 0x1d6d9, Mapped, Some [0x3c8]); (0x1d6da, 0x1d6da, Mapped, Some [0x3c9]);
   (0x1d6db, 0x1d6db, Mapped, Some [0x2202]); (0x1d6dc, 0x1d6dc, Mapped, Some [0x3b5]); (0x1d6dd, 0x1d6dd, Mapped, Some [0x3b8]);
   (0x1d6de, 0x1d6de, Mapped, Some [0x3ba]); (0x1d6df, 0x1d6df, Mapped, Some [0x3c6]); (0x1d6e0, 0x1d6e0, Mapped, Some [0x3c1]);
   (0x1d6e1, 0x1d6e1, Mapped, Some [0x3c0]); (0x1d6e2, 0x1d6e2, Mapped, Some [0x3b1]); (0x1d6e3, 0x1d6e3, Mapped, Some [0x3b2]);
   (0x1d6e4, 0x1d6e4, Mapped, Some [0x3b3]); (0x1d6e5, 0x1d6e5, Mapped, Some [0x3b4]); (0x1d6e6, 0x1d6e6, Mapped, Some [0x3b5]);
   (0x1d6e7, 0x1d6e7, Mapped, Some [0x3b6]); (0x1d6e8, 0x1d6e8, Mapped, Some [0x3b7]); (0x1d6e9, 0x1d6e9, Mapped, Some [0x3b8]);
   (0x1d6ea, 0x1d6ea, Mapped, Some [0x3b9]); (0x1d6eb, 0x1d6eb, Mapped, Some [0x3ba]); (0x1d6ec, 0x1d6ec, Mapped, Some [0x3bb]);
   (0x1d6ed, 0x1d6ed, Mapped, Some [0x3bc]); (0x1d6ee, 0x1d6ee, Mapped, Some [0x3bd]); (0x1d6ef, 0x1d6ef, Mapped, Some [0x3be]);
   (0x1d6f0, 0x1d6f0, Mapped, Some [0x3bf]); (0x1d6f1, 0x1d6f1, Mapped, Some [0x3c0]); (0x1d6f2, 0x1d6f2, Mapped, Some [0x3c1]);
   (0x1d6f3, 0x1d6f3, Mapped, Some [0x3b8]); (0x1d6f4, 0x1d6f4, Mapped, Some [0x3c3]); (0x1d6f5, 0x1d6f5, Mapped, Some [0x3c4]);
   (0x1d6f6, 0x1d6f6, Mapped, Some [0x3c5]); (0x1d6f7, 0x1d6f7, Mapped, Some [0x3c6]); (0x1d6f8, 0x1d6f8, Mapped, Some [0x3c7]);
   (0x1d6f9, 0x1d6f9, Mapped, Some [0x3c8]); (0x1d6fa, 0x1d6fa, Mapped, Some [0x3c9]); (0x1d6fb, 0x1d6fb, Mapped, Some [0x2207]);
   (0x1d6fc, 0x1d6fc, Mapped, Some [0x3b1]); (0x1d6fd, 0x1d6fd, Mapped, Some [0x3b2]); (0x1d6fe, 0x1d6fe, Mapped, Some [0x3b3]);
   (0x1d6ff, 0x1d6ff, Mapped, Some [0x3b4]); (0x1d700, 0x1d700, Mapped, Some [0x3b5]); (0x1d701, 0x1d701, Mapped, Some [0x3b6]);
   (0x1d702, 0x1d702, Mapped, Some [0x3b7]); (0x1d703, 0x1d703, Mapped, Some [0x3b8]); (0x1d704, 0x1d704, Mapped, Some [0x3b9]);
   (0x1d705, 0x1d705, Mapped, Some [0x3ba]); (0x1d706, 0x1d706, Mapped, Some [0x3bb]); (0x1d707, 0x1d707, Mapped, Some [0x3bc]);
   (0x1d708, 0x1d708, Mapped, Some [0x3bd]); (0x1d709, 0x1d709, Mapped, Some [0x3be]); (0x1d70a, 0x1d70a, Mapped, Some [0x3bf]);
   (0x1d70b, 0x1d70b, Mapped, Some [0x3c0]); (0x1d70c, 0x1d70c, Mapped, Some [0x3c1]); (0x1d70d, 0x1d70e, Mapped, Some [0x3c3]);
   (0x1d70f, 0x1d70f, Mapped, Some [0x3c4]); (0x1d710, 0x1d710, Mapped, Some [0x3c5]); (0x1d711, 0x1d711, Mapped, Some [0x3c6]);
   (0x1d712, 0x1d712, Mapped, Some [0x3c7]); (0x1d713, 0x1d713, Mapped, Some [0x3c8]); (0x1d714, 0x1d714, Mapped, Some [0x3c9]);
   (0x1d715, 0x1d715, Mapped, Some [0x2202]); (0x1d716, 0x1d716, Mapped, Some [0x3b5]); (0x1d717, 0x1d717, Mapped, Some [0x3b8]);
   (0x1d718, 0x1d718, Mapped, Some [0x3ba]); (0x1d719, 0x1d719, Mapped, Some [0x3c6]); (0x1d71a, 0x1d71a, Mapped, Some [0x3c1]);
   (0x1d71b, 0x1d71b, Mapped, Some [0x3c0]); (0x1d71c, 0x1d71c, Mapped, Some [0x3b1]); (0x1d71d, 0x1d71d, Mapped, Some [0x3b2]);
   (0x1d71e, 0x1d71e, Mapped, Some [0x3b3]); (0x1d71f, 0x1d71f, Mapped, Some [0x3b4]); (0x1d720, 0x1d720, Mapped, Some [0x3b5]);
   (0x1d721, 0x1d721, Mapped, Some [0x3b6]); (0x1d722, 0x1d722, Mapped, Some [0x3b7]); (0x1d723, 0x1d723, Mapped, Some [0x3b8]);
   (0x1d724, 0x1d724, Mapped, Some [0x3b9]); (0x1d725, 0x1d725, Mapped, Some [0x3ba]); (0x1d726, 0x1d726, Mapped, Some [0x3bb]);
   (0x1d727, 0x1d727, Mapped, Some [0x3bc]); (0x1d728, 0x1d728, Mapped, Some [0x3bd]); (0x1d729, 0x1d729, Mapped, Some [0x3be]);
   (0x1d72a, 0x1d72a, Mapped, Some [0x3bf]); (0x1d72b, 0x1d72b, Mapped, Some [0x3c0]); (0x1d72c, 0x1d72c, Mapped, Some [0x3c1]);
   (0x1d72d, 0x1d72d, Mapped, Some [0x3b8]); (0x1d72e, 0x1d72e, Mapped, Some [0x3c3]); (0x1d72f, 0x1d72f, Mapped, Some [0x3c4]);
   (0x1d730, 0x1d730, Mapped, Some [0x3c5]); (0x1d731, 0x1d731, Mapped, Some [0x3c6]); (0x1d732, 0x1d732, Mapped, Some [0x3c7]);
   (0x1d733, 0x1d733, Mapped, Some [0x3c8]); (0x1d734, 0x1d734, Mapped, Some [0x3c9]); (0x1d735, 0x1d735, Mapped, Some [0x2207]);
   (0x1d736, 0x1d736, Mapped, Some [0x3b1]); (0x1d737, 0x1d737, Mapped, Some [0x3b2]); (0x1d738, 0x1d738, Mapped, Some [0x3b3]);
   (0x1d739, 0x1d739, Mapped, Some [0x3b4]); (0x1d73a, 0x1d73a, Mapped, Some [0x3b5]); (0x1d73b, 0x1d73b, Mapped, Some [0x3b6]);
   (0x1d73c, 0x1d73c, Mapped, Some [0x3b7]); (0x1d73d, 0x1d73d, Mapped, Some [0x3b8]); (0x1d73e, 0x1d73e, Mapped, Some [0x3b9]);
   (0x1d73f, 0x1d73f, Mapped, Some [0x3ba]); (0x1d740, 0x1d740, Mapped, Some [0x3bb]); (0x1d741, 0x1d741, Mapped, Some [0x3bc]);
   (0x1d742, 0x1d742, Mapped, Some [0x3bd]); (0x1d743, 0x1d743, Mapped, Some [0x3be]); (0x1d744, 0x1d744, Mapped, Some [0x3bf]);
   (0x1d745, 0x1d745, Mapped, Some [0x3c0]); (0x1d746, 0x1d746, Mapped, Some [0x3c1]); (0x1d747, 0x1d748, Mapped, Some [0x3c3]);
   (0x1d749, 0x1d749, Mapped, Some [0x3c4]); (0x1d74a, 0x1d74a, Mapped, Some [0x3c5]); (0x1d74b, 0x1d74b, Mapped, Some [0x3c6]);
   (0x1d74c, 0x1d74c, Mapped, Some [0x3c7]); (0x1d74d, 0x1d74d, Mapped, Some [0x3c8]); (0x1d74e, 0x1d74e, Mapped, Some [0x3c9]);
   (0x1d74f, 0x1d74f, Mapped, Some [0x2202]); (0x1d750, 0x1d750, Mapped, Some [0x3b5]); (0x1d751, 0x1d751, Mapped, Some [0x3b8]);
   (0x1d752, 0x1d752, Mapped, Some [0x3ba]); (0x1d753, 0x1d753, Mapped, Some [0x3c6]); (0x1d754, 0x1d754, Mapped, Some [0x3c1]);
   (0x1d755, 0x1d755, Mapped, Some [0x3c0]); (0x1d756, 0x1d756, Mapped, Some [0x3b1]); (0x1d757, 0x1d757, Mapped, Some [0x3b2]);
   (0x1d758, 0x1d758, Mapped, Some [0x3b3]); (0x1d759, 0x1d759, Mapped, Some [0x3b4]); (0x1d75a, 0x1d75a, Mapped, Some [0x3b5]);
   (0x1d75b, 0x1d75b, Mapped, Some [0x3b6]); (0x1d75c, 0x1d75c, Mapped, Some [0x3b7]); (0x1d75d, 0x1d75d, Mapped, Some [0x3b8]);
   (0x1d75e, 0x1d75e, Mapped, Some [0x3b9]); (0x1d75f, 0x1d75f, Mapped, Some [0x3ba]); (0x1d760, 0x1d760, Mapped, Some [0x3bb]);
   (0x1d761, 0x1d761, Mapped, Some [0x3bc]); (0x1d762, 0x1d762, Mapped, Some [0x3bd]); (0x1d763, 0x1d763, Mapped, Some [0x3be]);
   (0x1d764, 0x1d764, Mapped, Some [0x3bf]); (0x1d765, 0x1d765, Mapped, Some [0x3c0]); (0x1d766, 0x1d766, Mapped, Some [0x3c1]);
   (0x1d767, 0x1d767, Mapped, Some [0x3b8]); (0x1d768, 0x1d768, Mapped, Some [0x3c3]); (0x1d769, 0x1d769, Mapped, Some [0x3c4]);
   (0x1d76a, 0x1d76a, Mapped, Some [0x3c5]); (0x1d76b, 0x1d76b, Mapped, Some [0x3c6]); (0x1d76c, 0x1d76c, Mapped, Some [0x3c7]);
   (0x1d76d, 0x1d76d, Mapped, Some [0x3c8]); (0x1d76e, 0x1d76e, Mapped, Some [0x3c9]); (0x1d76f, 0x1d76f, Mapped, Some [0x2207]);
   (0x1d770, 0x1d770, Mapped, Some [0x3b1]); (0x1d771, 0x1d771, Mapped, Some [0x3b2]); (0x1d772, 0x1d772, Mapped, Some [0x3b3]);
   (0x1d773, 0x1d773, Mapped, Some [0x3b4]); (0x1d774, 0x1d774, Mapped, Some [0x3b5]); (0x1d775, 0x1d775, Mapped, Some [0x3b6]);
   (0x1d776, 0x1d776, Mapped, Some [0x3b7]); (0x1d777, 0x1d777, Mapped, Some [0x3b8]); (0x1d778, 0x1d778, Mapped, Some [0x3b9]);
   (0x1d779, 0x1d779, Mapped, Some [0x3ba]); (0x1d77a, 0x1d77a, Mapped, Some [0x3bb]); (0x1d77b, 0x1d77b, Mapped, Some [0x3bc]);
   (0x1d77c, 0x1d77c, Mapped, Some [0x3bd]); (0x1d77d, 0x1d77d, Mapped, Some [0x3be]); (0x1d77e, 0x1d77e, Mapped, Some [0x3bf]);
   (0x1d77f, 0x1d77f, Mapped, Some [0x3c0]); (0x1d780, 0x1d780, Mapped, Some [0x3c1]); (0x1d781, 0x1d782, Mapped, Some [0x3c3]);
   (0x1d783, 0x1d783, Mapped, Some [0x3c4]); (0x1d784, 0x1d784, Mapped, Some [0x3c5]); (0x1d785, 0x1d785, Mapped, Some [0x3c6]);
   (0x1d786, 0x1d786, Mapped, Some [0x3c7]); (0x1d787, 0x1d787, Mapped, Some [0x3c8]); (0x1d788, 0x1d788, Mapped, Some [0x3c9]);
   (0x1d789, 0x1d789, Mapped, Some [0x2202]); (0x1d78a, 0x1d78a, Mapped, Some [0x3b5]); (0x1d78b, 0x1d78b, Mapped, Some [0x3b8]);
   (0x1d78c, 0x1d78c, Mapped, Some [0x3ba]); (0x1d78d, 0x1d78d, Mapped, Some [0x3c6]); (0x1d78e, 0x1d78e, Mapped, Some [0x3c1]);
   (0x1d78f, 0x1d78f, Mapped, Some [0x3c0]); (0x1d790, 0x1d790, Mapped, Some [0x3b1]); (0x1d791, 0x1d791, Mapped, Some [0x3b2]);
   (0x1d792, 0x1d792, Mapped, Some [0x3b3]); (0x1d793, 0x1d793, Mapped, Some [0x3b4]); (0x1d794, 0x1d794, Mapped, Some [0x3b5]);
   (0x1d795, 0x1d795, Mapped, Some [0x3b6]); (0x1d796, 0x1d796, Mapped, Some [0x3b7]); (0x1d797, 0x1d797, Mapped, Some [0x3b8]);
   (0x1d798, 0x1d798, Mapped, Some [0x3b9]); (0x1d799, 0x1d799, Mapped, Some [0x3ba]); (0x1d79a, 0x1d79a, Mapped, Some [0x3bb]);
   (0x1d79b, 0x1d79b, Mapped, Some [0x3bc]); (0x1d79c, 0x1d79c, Mapped, Some [0x3bd]); (0x1d79d, 0x1d79d, Mapped, Some [0x3be]);
   (0x1d79e, 0x1d79e, Mapped, Some [0x3bf]); (0x1d79f, 0x1d79f, Mapped, Some [0x3c0]); (0x1d7a0, 0x1d7a0, Mapped, Some [0x3c1]);
   (0x1d7a1, 0x1d7a1, Mapped, Some [0x3b8]); (0x1d7a2, 0x1d7a2, Mapped, Some [0x3c3]); (0x1d7a3, 0x1d7a3, Mapped, Some [0x3c4]);
   (0x1d7a4, 0x1d7a4, Mapped, Some [0x3c5]); (0x1d7a5, 0x1d7a5, Mapped, Some [0x3c6]); (0x1d7a6, 0x1d7a6, Mapped, Some [0x3c7]);
   (0x1d7a7, 0x1d7a7, Mapped, Some [0x3c8]); (0x1d7a8, 0x1d7a8, Mapped, Some [0x3c9]); (0x1d7a9, 0x1d7a9, Mapped, Some [0x2207]);
   (0x1d7aa, 0x1d7aa, Mapped, Some [0x3b1]); (0x1d7ab, 0x1d7ab, Mapped, Some [0x3b2]); (0x1d7ac, 0x1d7ac, Mapped, Some [0x3b3]);
   (0x1d7ad, 0x1d7ad, Mapped, Some [0x3b4]); (0x1d7ae, 0x1d7ae, Mapped, Some [0x3b5]); (0x1d7af, 0x1d7af, Mapped, Some [0x3b6]);
   (0x1d7b0, 0x1d7b0, Mapped, Some [0x3b7]); (0x1d7b1, 0x1d7b1, Mapped, Some [0x3b8]); (0x1d7b2, 0x1d7b2, Mapped, Some [0x3b9]);
   (0x1d7b3, 0x1d7b3, Mapped, Some [0x3ba]); (0x1d7b4, 0x1d7b4, Mapped, Some [0x3bb]); (0x1d7b5, 0x1d7b5, Mapped, Some [0x3bc]);
   (0x1d7b6, 0x1d7b6, Mapped, Some [0x3bd]); (0x1d7b7, 0x1d7b7, Mapped, Some [0x3be]); (0x1d7b8, 0x1d7b8, Mapped, Some [0x3bf]);
   (0x1d7b9, 0x1d7b9, Mapped, Some [0x3c0]); (0x1d7ba, 0x1d7ba, Mapped, Some [0x3c1]); (0x1d7bb, 0x1d7bc, Mapped, Some [0x3c3]);
   (0x1d7bd, 0x1d7bd, Mapped, Some [0x3c4]); (0x1d7be, 0x1d7be, Mapped, Some [0x3c5]); (0x1d7bf, 0x1d7bf, Mapped, Some [0x3c6]);
   (0x1d7c0, 0x1d7c0, Mapped, Some [0x3c7]); (0x1d7c1, 0x1d7c1, Mapped, Some [0x3c8]); (0x1d7c2, 0x1d7c2, Mapped, Some [0x3c9]);
   (0x1d7c3, 0x1d7c3, Mapped, Some [0x2202]); (0x1d7c4, 0x1d7c4, Mapped, Some [0x3b5]); (0x1d7c5, 0x1d7c5, Mapped, Some [0x3b8]);
   (0x1d7c6, 0x1d7c6, Mapped, Some [0x3ba]); (0x1d7c7, 0x1d7c7, Mapped, Some [0x3c6]); (0x1d7c8, 0x1d7c8, Mapped, Some [0x3c1]);
   (0x1d7c9, 0x1d7c9, Mapped, Some [0x3c0]); (0x1d7ca, 0x1d7cb, Mapped, Some [0x3dd]); (0x1d7cc, 0x1d7cd, Disallowed, None);
   (0x1d7ce, 0x1d7ce, Mapped, Some [0x30]); (0x1d7cf, 0x1d7cf, Mapped, Some [0x31]); (0x1d7d0, 0x1d7d0, Mapped, Some [0x32]);
   (0x1d7d1, 0x1d7d1, Mapped, Some [0x33]); (0x1d7d2, 0x1d7d2, Mapped, Some [0x34]); (0x1d7d3, 0x1d7d3, Mapped, Some [0x35]);
   (0x1d7d4, 0x1d7d4, Mapped, Some [0x36]); (0x1d7d5, 0x1d7d5, Mapped, Some [0x37]); (0x1d7d6, 0x1d7d6, Mapped, Some [0x38]);
   (0x1d7d7, 0x1d7d7, Mapped, Some [0x39]); (0x1d7d8, 0x1d7d8, Mapped, Some [0x30]); (0x1d7d9, 0x1d7d9, Mapped, Some [0x31]);
   (0x1d7da, 0x1d7da, Mapped, Some [0x32]); (0x1d7db, 0x1d7db, Mapped, Some [0x33]); (0x1d7dc, 0x1d7dc, Mapped, Some [0x34]);
   (0x1d7dd, 0x1d7dd, Mapped, Some [0x35]); (0x1d7de, 0x1d7de, Mapped, Some [0x36]); (0x1d7df, 0x1d7df, Mapped, Some [0x37]);
   (0x1d7e0, 0x1d7e0, Mapped, Some [0x38]); (0x1d7e1, 0x1d7e1, Mapped, Some [0x39]); (0x1d7e2, 0x1d7e2, Mapped, Some [0x30]);
   (0x1d7e3, 0x1d7e3, Mapped, Some [0x31]); (0x1d7e4, 0x1d7e4, Mapped, Some [0x32]); (0x1d7e5, 0x1d7e5, Mapped, Some [0x33]);
   (0x1d7e6, 0x1d7e6, Mapped, Some [0x34]); (0x1d7e7, 0x1d7e7, Mapped, Some [0x35]); (0x1d7e8, 0x1d7e8, Mapped, Some [0x36]);
   (0x1d7e9, 0x1d7e9, Mapped, Some [0x37]); (0x1d7ea, 0x1d7ea, Mapped, Some [0x38]); (0x1d7eb, 0x1d7eb, Mapped, Some [0x39]);
   (0x1d7ec, 0x1d7ec, Mapped, Some [0x30]); (0x1d7ed, 0x1d7ed, Mapped, Some [0x31]); (0x1d7ee, 0x1d7ee, Mapped, Some [0x32]);
   (0x1d7ef, 0x1d7ef, Mapped, Some [0x33]); (0x1d7f0, 0x1d7f0, Mapped, Some [0x34]); (0x1d7f1, 0x1d7f1, Mapped, Some [0x35]);
   (0x1d7f2, 0x1d7f2, Mapped, Some [0x36]); (0x1d7f3, 0x1d7f3, Mapped, Some [0x37]); (0x1d7f4, 0x1d7f4, Mapped, Some [0x38]);
   (0x1d7f5, 0x1d7f5, Mapped, Some [0x39]); (0x1d7f6, 0x1d7f6, Mapped, Some [0x30]); (0x1d7f7, 0x1d7f7, Mapped, Some [0x31]);
   (0x1d7f8, 0x1d7f8, Mapped, Some [0x32]); (0x1d7f9, 0x1d7f9, Mapped, Some [0x33]); (0x1d7fa, 0x1d7fa, Mapped, Some [0x34]);
   (0x1d7fb, 0x1d7fb, Mapped, Some [0x35]); (0x1d7fc, 0x1d7fc, Mapped, Some [0x36]); (0x1d7fd, 0x1d7fd, Mapped, Some [0x37]);
   (0x1d7fe, 0x1d7fe, Mapped, Some [0x38]); (0x1d7ff, 0x1d7ff, Mapped, Some [0x39]); (0x1d800, 0x1d9ff, Valid, Some []);
   (0x1da00, 0x1da36, Valid, None); (0x1da37, 0x1da3a, Valid, Some []); (0x1da3b, 0x1da6c, Valid, None);
   (0x1da6d, 0x1da74, Valid, Some []); (0x1da75, 0x1da75, Valid, None); (0x1da76, 0x1da83, Valid, Some []);
   (0x1da84, 0x1da84, Valid, None); (0x1da85, 0x1da8b, Valid, Some []); (0x1da8c, 0x1da9a, Disallowed, None);
   (0x1da9b, 0x1da9f, Valid, None); (0x1daa0, 0x1daa0, Disallowed, None); (0x1daa1, 0x1daaf, Valid, None);
   (0x1dab0, 0x1dfff, Disallowed, None); (0x1e000, 0x1e006, Valid, None); (0x1e007, 0x1e007, Disallowed, None);
   (0x1e008, 0x1e018, Valid, None); (0x1e019, 0x1e01a, Disallowed, None); (0x1e01b, 0x1e021, Valid, None);
   (0x1e022, 0x1e022, Disallowed, None); (0x1e023, 0x1e024, Valid, None); (0x1e025, 0x1e025, Disallowed, None);
   (0x1e026, 0x1e02a, Valid, None); (0x1e02b, 0x1e0ff, Disallowed, None); (0x1e100, 0x1e12c, Valid, None);
   (0x1e12d, 0x1e12f, Disallowed, None); (0x1e130, 0x1e13d, Valid, None); (0x1e13e, 0x1e13f, Disallowed, None);
   (0x1e140, 0x1e149, Valid, None); (0x1e14a, 0x1e14d, Disallowed, None); (0x1e14e, 0x1e14e, Valid, None);
   (0x1e14f, 0x1e14f, Valid, Some []); (0x1e150, 0x1e2bf, Disallowed, None); (0x1e2c0, 0x1e2f9, Valid, None);
   (0x1e2fa, 0x1e2fe, Disallowed, None); (0x1e2ff, 0x1e2ff, Valid, Some []); (0x1e300, 0x1e7ff, Disallowed, None);
   (0x1e800, 0x1e8c4, Valid, None); (0x1e8c5, 0x1e8c6, Disallowed, None); (0x1e8c7, 0x1e8cf, Valid, Some []);
   (0x1e8d0, 0x1e8d6, Valid, None); (0x1e8d7, 0x1e8ff, Disallowed, None); (0x1e900, 0x1e900, Mapped, Some [0x1e922]);
   (0x1e901, 0x1e901, Mapped, Some [0x1e923]); (0x1e902, 0x1e902, Mapped, Some [0x1e924]); (0x1e903, 0x1e903, Mapped, Some [0x1e925]);
   (0x1e904, 0x1e904, Mapped, Some [0x1e926]); (0x1e905, 0x1e905, Mapped, Some [0x1e927]); (0x1e906, 0x1e906, Mapped, Some [0x1e928]);
   (0x1e907, 0x1e907, Mapped, Some [0x1e929]); (0x1e908, 0x1e908, Mapped, Some [0x1e92a]); (0x1e909, 0x1e909, Mapped, Some [0x1e92b]);
   (0x1e90a, 0x1e90a, Mapped, Some [0x1e92c]); (0x1e90b, 0x1e90b, Mapped, Some [0x1e92d]); (0x1e90c, 0x1e90c, Mapped, Some [0x1e92e]);
   (0x1e90d, 0x1e90d, Mapped, Some [0x1e92f]); (0x1e90e, 0x1e90e, Mapped, Some [0x1e930]); (0x1e90f, 0x1e90f, Mapped, Some [0x1e931]);
   (0x1e910, 0x1e910, Mapped, Some [0x1e932]); (0x1e911, 0x1e911, Mapped, Some [0x1e933]); (0x1e912, 0x1e912, Mapped, Some [0x1e934]);
   (0x1e913, 0x1e913, Mapped, Some [0x1e935]); (0x1e914, 0x1e914, Mapped, Some [0x1e936]); (0x1e915, 0x1e915, Mapped, Some [0x1e937]);
   (0x1e916, 0x1e916, Mapped, Some [0x1e938]); (0x1e917, 0x1e917, Mapped, Some [0x1e939]); (0x1e918, 0x1e918, Mapped, Some [0x1e93a]);
   (0x1e919, 0x1e919, Mapped, Some [0x1e93b]); (0x1e91a, 0x1e91a, Mapped, Some [0x1e93c]); (0x1e91b, 0x1e91b, Mapped, Some [0x1e93d]);
   (0x1e91c, 0x1e91c, Mapped, Some [0x1e93e]); (0x1e91d, 0x1e91d, Mapped, Some [0x1e93f]); (0x1e91e, 0x1e91e, Mapped, Some [0x1e940]);
   (0x1e91f, 0x1e91f, Mapped, Some [0x1e941]); (0x1e920, 0x1e920, Mapped, Some [0x1e942]); (0x1e921, 0x1e921, Mapped, Some [0x1e943]);
   (0x1e922, 0x1e94a, Valid, None); (0x1e94b, 0x1e94b, Valid, None); (0x1e94c, 0x1e94f, Disallowed, None);
   (0x1e950, 0x1e959, Valid, None); (0x1e95a, 0x1e95d, Disallowed, None); (0x1e95e, 0x1e95f, Valid, Some []);
   (0x1e960, 0x1ec70, Disallowed, None); (0x1ec71, 0x1ecb4, Valid, Some []); (0x1ecb5, 0x1ed00, Disallowed, None);
   (0x1ed01, 0x1ed3d, Valid, Some []); (0x1ed3e, 0x1edff, Disallowed, None); (0x1ee00, 0x1ee00, Mapped, Some [0x627]);
   (0x1ee01, 0x1ee01, Mapped, Some [0x628]); (0x1ee02, 0x1ee02, Mapped, Some [0x62c]); (0x1ee03, 0x1ee03, Mapped, Some [0x62f]);
   (0x1ee04, 0x1ee04, Disallowed, None); (0x1ee05, 0x1ee05, Mapped, Some [0x648]); (0x1ee06, 0x1ee06, Mapped, Some [0x632]);
   (0x1ee07, 0x1ee07, Mapped, Some [0x62d]); (0x1ee08, 0x1ee08, Mapped, Some [0x637]); (0x1ee09, 0x1ee09, Mapped, Some [0x64a]);
   (0x1ee0a, 0x1ee0a, Mapped, Some [0x643]); (0x1ee0b, 0x1ee0b, Mapped, Some [0x644]); (0x1ee0c, 0x1ee0c, Mapped, Some [0x645]);
   (0x1ee0d, 0x1ee0d, Mapped, Some [0x646]); (0x1ee0e, 0x1ee0e, Mapped, Some [0x633]); (0x1ee0f, 0x1ee0f, Mapped, Some [0x639]);
   (0x1ee10, 0x1ee10, Mapped, Some [0x641]); (0x1ee11, 0x1ee11, Mapped, Some [0x635]); (0x1ee12, 0x1ee12, Mapped, Some [0x642]);
   (0x1ee13, 0x1ee13, Mapped, Some [0x631]); (0x1ee14, 0x1ee14, Mapped, Some [0x634]); (0x1ee15, 0x1ee15, Mapped, Some [0x62a]);
   (0x1ee16, 0x1ee16, Mapped, Some [0x62b]); (0x1ee17, 0x1ee17, Mapped, Some [0x62e]); (0x1ee18, 0x1ee18, Mapped, Some [0x630]);
   (0x1ee19, 0x1ee19, Mapped, Some [0x636]); (0x1ee1a, 0x1ee1a, Mapped, Some [0x638]); (0x1ee1b, 0x1ee1b, Mapped, Some [0x63a]);
   (0x1ee1c, 0x1ee1c, Mapped, Some [0x66e]); (0x1ee1d, 0x1ee1d, Mapped, Some [0x6ba]); (0x1ee1e, 0x1ee1e, Mapped, Some [0x6a1]);
   (0x1ee1f, 0x1ee1f, Mapped, Some [0x66f]); (0x1ee20, 0x1ee20, Disallowed, None); (0x1ee21, 0x1ee21, Mapped, Some [0x628]);
   (0x1ee22, 0x1ee22, Mapped, Some [0x62c]); (0x1ee23, 0x1ee23, Disallowed, None); (0x1ee24, 0x1ee24, Mapped, Some [0x647]);
   (0x1ee25, 0x1ee26, Disallowed, None); (0x1ee27, 0x1ee27, Mapped, Some [0x62d]); (0x1ee28, 0x1ee28, Disallowed, None);
   (0x1ee29, 0x1ee29, Mapped, Some [0x64a]); (0x1ee2a, 0x1ee2a, Mapped, Some [0x643]); (0x1ee2b, 0x1ee2b, Mapped, Some [0x644]);
   (0x1ee2c, 0x1ee2c, Mapped, Some [0x645]); (0x1ee2d, 0x1ee2d, Mapped, Some [0x646]); (0x1ee2e, 0x1ee2e, Mapped, Some [0x633]);
   (0x1ee2f, 0x1ee2f, Mapped, Some [0x639]); (0x1ee30, 0x1ee30, Mapped, Some [0x641]); (0x1ee31, 0x1ee31, Mapped, Some [0x635]);
   (0x1ee32, 0x1ee32, Mapped, Some [0x642]); (0x1ee33, 0x1ee33, Disallowed, None); (0x1ee34, 0x1ee34, Mapped, Some [0x634]);
   (0x1ee35, 0x1ee35, Mapped, Some [0x62a]); (0x1ee36, 0x1ee36, Mapped, Some [0x62b]); (0x1ee37, 0x1ee37, Mapped, Some [0x62e]);
   (0x1ee38, 0x1ee38, Disallowed, None); (0x1ee39, 0x1ee39, Mapped, Some [0x636]); (0x1ee3a, 0x1ee3a, Disallowed, None);
   (0x1ee3b, 0x1ee3b, Mapped, Some [0x63a]); (0x1ee3c, 0x1ee41, Disallowed, None); (0x1ee42, 0x1ee42, Mapped, Some [0x62c]);
   (0x1ee43, 0x1ee46, Disallowed, None); (0x1ee47, 0x1ee47, Mapped, Some [0x62d]); (0x1ee48, 0x1ee48, Disallowed, None);
   (0x1ee49, 0x1ee49, Mapped, Some [0x64a]); (0x1ee4a, 0x1ee4a, Disallowed, None); (0x1ee4b, 0x1ee4b, Mapped, Some [0x644]);
   (0x1ee4c, 0x1ee4c, Disallowed, None); (0x1ee4d, 0x1ee4d, Mapped, Some [0x646]); (0x1ee4e, 0x1ee4e, Mapped, Some [0x633]);
   (0x1ee4f, 0x1ee4f, Mapped, Some [0x639]); (0x1ee50, 0x1ee50, Disallowed, None); (0x1ee51, 0x1ee51, Mapped, Some [0x635]);
   (0x1ee52, 0x1ee52, Mapped, Some [0x642]); (0x1ee53, 0x1ee53, Disallowed, None); (0x1ee54, 0x1ee54, Mapped, Some [0x634]);
   (0x1ee55, 0x1ee56, Disallowed, None); (0x1ee57, 0x1ee57, Mapped, Some [0x62e]); (0x1ee58, 0x1ee58, Disallowed, None);
   (0x1ee59, 0x1ee59, Mapped, Some [0x636]); (0x1ee5a, 0x1ee5a, Disallowed, None); (0x1ee5b, 0x1ee5b, Mapped, Some [0x63a]);
   (0x1ee5c, 0x1ee5c, Disallowed, None); (0x1ee5d, 0x1ee5d, Mapped, Some [0x6ba]); (0x1ee5e, 0x1ee5e, Disallowed, None);
   (0x1ee5f, 0x1ee5f, Mapped, Some [0x66f]); (0x1ee60, 0x1ee60, Disallowed, None); (0x1ee61, 0x1ee61, Mapped, Some [0x628]);
   (0x1ee62, 0x1ee62, Mapped, Some [0x62c]); (0x1ee63, 0x1ee63, Disallowed, None); (0x1ee64, 0x1ee64, Mapped, Some [0x647]);
   (0x1ee65, 0x1ee66, Disallowed, None); (0x1ee67, 0x1ee67, Mapped, Some [0x62d]); (0x1ee68, 0x1ee68, Mapped, Some [0x637]);
   (0x1ee69, 0x1ee69, Mapped, Some [0x64a]); (0x1ee6a, 0x1ee6a, Mapped, Some [0x643]); (0x1ee6b, 0x1ee6b, Disallowed, None);
   (0x1ee6c, 0x1ee6c, Mapped, Some [0x645]); (0x1ee6d, 0x1ee6d, Mapped, Some [0x646]); (0x1ee6e, 0x1ee6e, Mapped, Some [0x633]);
   (0x1ee6f, 0x1ee6f, Mapped, Some [0x639]); (0x1ee70, 0x1ee70, Mapped, Some [0x641]); (0x1ee71, 0x1ee71, Mapped, Some [0x635]);
   (0x1ee72, 0x1ee72, Mapped, Some [0x642]); (0x1ee73, 0x1ee73, Disallowed, None); (0x1ee74, 0x1ee74, Mapped, Some [0x634]);
   (0x1ee75, 0x1ee75, Mapped, Some [0x62a]); (0x1ee76, 0x1ee76, Mapped, Some [0x62b]); (0x1ee77, 0x1ee77, Mapped, Some [0x62e]);
   (0x1ee78, 0x1ee78, Disallowed, None); (0x1ee79, 0x1ee79, Mapped, Some [0x636]); (0x1ee7a, 0x1ee7a, Mapped, Some [0x638]);
   (0x1ee7b, 0x1ee7b, Mapped, Some [0x63a]); (0x1ee7c, 0x1ee7c, Mapped, Some [0x66e]); (0x1ee7d, 0x1ee7d, Disallowed, None);
   (0x1ee7e, 0x1ee7e, Mapped, Some [0x6a1]); (0x1ee7f, 0x1ee7f, Disallowed, None); (0x1ee80, 0x1ee80, Mapped, Some [0x627]);
   (0x1ee81, 0x1ee81, Mapped, Some [0x628]); (0x1ee82, 0x1ee82, Mapped, Some [0x62c]); (0x1ee83, 0x1ee83, Mapped, Some [0x62f]);
   (0x1ee84, 0x1ee84, Mapped, Some [0x647]); (0x1ee85, 0x1ee85, Mapped, Some [0x648]); (0x1ee86, 0x1ee86, Mapped, Some [0x632]);
   (0x1ee87, 0x1ee87, Mapped, Some [0x62d]); (0x1ee88, 0x1ee88, Mapped, Some [0x637]); (0x1ee89, 0x1ee89, Mapped, Some [0x64a]);
   (0x1ee8a, 0x1ee8a, Disallowed, None); (0x1ee8b, 0x1ee8b, Mapped, Some [0x644]); (0x1ee8c, 0x1ee8c, Mapped, Some [0x645]);
   (0x1ee8d, 0x1ee8d, Mapped, Some [0x646]); (0x1ee8e, 0x1ee8e, Mapped, Some [0x633]); (0x1ee8f, 0x1ee8f, Mapped, Some [0x639]);
   (0x1ee90, 0x1ee90, Mapped, Some [0x641]); (0x1ee91, 0x1ee91, Mapped, Some [0x635]); (0x1ee92, 0x1ee92, Mapped, Some [0x642]);
   (0x1ee93, 0x1ee93, Mapped, Some [0x631]); (0x1ee94, 0x1ee94, Mapped, Some [0x634]); (0x1ee95, 0x1ee95, Mapped, Some [0x62a]);
   (0x1ee96, 0x1ee96, Mapped, Some [0x62b]); (0x1ee97, 0x1ee97, Mapped, Some [0x62e]); (0x1ee98, 0x1ee98, Mapped, Some [0x630]);
   (0x1ee99, 0x1ee99, Mapped, Some [0x636]); (0x1ee9a, 0x1ee9a, Mapped, Some [0x638]); (0x1ee9b, 0x1ee9b, Mapped, Some [0x63a]);
   (0x1ee9c, 0x1eea0, Disallowed, None); (0x1eea1, 0x1eea1, Mapped, Some [0x628]); (0x1eea2, 0x1eea2, Mapped, Some [0x62c]);
   (0x1eea3, 0x1eea3, Mapped, Some [0x62f]); (0x1eea4, 0x1eea4, Disallowed, None); (0x1eea5, 0x1eea5, Mapped, Some [0x648]);
   (0x1eea6, 0x1eea6, Mapped, Some [0x632]); (0x1eea7, 0x1eea7, Mapped, Some [0x62d]); (0x1eea8, 0x1eea8, Mapped, Some [0x637]);
   (0x1eea9, 0x1eea9, Mapped, Some [0x64a]); (0x1eeaa, 0x1eeaa, Disallowed, None); (0x1eeab, 0x1eeab, Mapped, Some [0x644]);
   (0x1eeac, 0x1eeac, Mapped, Some [0x645]); (0x1eead, 0x1eead, Mapped, Some [0x646]); (0x1eeae, 0x1eeae, Mapped, Some [0x633]);
   (0x1eeaf, 0x1eeaf, Mapped, Some [0x639]); (0x1eeb0, 0x1eeb0, Mapped, Some [0x641]); (0x1eeb1, 0x1eeb1, Mapped, Some [0x635]);
   (0x1eeb2, 0x1eeb2, Mapped, Some [0x642]); (0x1eeb3, 0x1eeb3, Mapped, Some [0x631]); (0x1eeb4, 0x1eeb4, Mapped, Some [0x634]);
   (0x1eeb5, 0x1eeb5, Mapped, Some [0x62a]); (0x1eeb6, 0x1eeb6, Mapped, Some [0x62b]); (0x1eeb7, 0x1eeb7, Mapped, Some [0x62e]);
   (0x1eeb8, 0x1eeb8, Mapped, Some [0x630]); (0x1eeb9, 0x1eeb9, Mapped, Some [0x636]); (0x1eeba, 0x1eeba, Mapped, Some [0x638]);
   (0x1eebb, 0x1eebb, Mapped, Some [0x63a]); (0x1eebc, 0x1eeef, Disallowed, None); (0x1eef0, 0x1eef1, Valid, Some []);
   (0x1eef2, 0x1efff, Disallowed, None); (0x1f000, 0x1f02b, Valid, Some []); (0x1f02c, 0x1f02f, Disallowed, None);
   (0x1f030, 0x1f093, Valid, Some []); (0x1f094, 0x1f09f, Disallowed, None); (0x1f0a0, 0x1f0ae, Valid, Some []);
   (0x1f0af, 0x1f0b0, Disallowed, None); (0x1f0b1, 0x1f0be, Valid, Some []); (0x1f0bf, 0x1f0bf, Valid, Some []);
   (0x1f0c0, 0x1f0c0, Disallowed, None); (0x1f0c1, 0x1f0cf, Valid, Some []); (0x1f0d0, 0x1f0d0, Disallowed, None);
   (0x1f0d1, 0x1f0df, Valid, Some []); (0x1f0e0, 0x1f0f5, Valid, Some []); (0x1f0f6, 0x1f0ff, Disallowed, None);
   (0x1f100, 0x1f100, Disallowed, None); (0x1f101, 0x1f101, Std3_mapped, Some [0x30; 0x2c]); (0x1f102, 0x1f102, Std3_mapped, Some [0x31; 0x2c]);
   (0x1f103, 0x1f103, Std3_mapped, Some [0x32; 0x2c]); (0x1f104, 0x1f104, Std3_mapped, Some [0x33; 0x2c]); (0x1f105, 0x1f105, Std3_mapped, Some [0x34; 0x2c]);
   (0x1f106, 0x1f106, Std3_mapped, Some [0x35; 0x2c]); (0x1f107, 0x1f107, Std3_mapped, Some [0x36; 0x2c]); (0x1f108, 0x1f108, Std3_mapped, Some [0x37; 0x2c]);
   (0x1f109, 0x1f109, Std3_mapped, Some [0x38; 0x2c]); (0x1f10a, 0x1f10a, Std3_mapped, Some [0x39; 0x2c]); (0x1f10b, 0x1f10c, Valid, Some []);
   (0x1f10d, 0x1f10f, Valid, Some []); (0x1f110, 0x1f110, Std3_mapped, Some [0x28; 0x61; 0x29]); (0x1f111, 0x1f111, Std3_mapped, Some [0x28; 0x62; 0x29]);
   (0x1f112, 0x1f112, Std3_mapped, Some [0x28; 0x63; 0x29]); (0x1f113, 0x1f113, Std3_mapped, Some [0x28; 0x64; 0x29]); (0x1f114, 0x1f114, Std3_mapped, Some [0x28; 0x65; 0x29]);
   (0x1f115, 0x1f115, Std3_mapped, Some [0x28; 0x66; 0x29]); (0x1f116, 0x1f116, Std3_mapped, Some [0x28; 0x67; 0x29]); (0x1f117, 0x1f117, Std3_mapped, Some [0x28; 0x68; 0x29]);
   (0x1f118, 0x1f118, Std3_mapped, Some [0x28; 0x69; 0x29]); (0x1f119, 0x1f119, Std3_mapped, Some [0x28; 0x6a; 0x29]); (0x1f11a, 0x1f11a, Std3_mapped, Some [0x28; 0x6b; 0x29]);
   (0x1f11b, 0x1f11b, Std3_mapped, Some [0x28; 0x6c; 0x29]); (0x1f11c, 0x1f11c, Std3_mapped, Some [0x28; 0x6d; 0x29]); (0x1f11d, 0x1f11d, Std3_mapped, Some [0x28; 0x6e; 0x29]);
   (0x1f11e, 0x1f11e, Std3_mapped, Some [0x28; 0x6f; 0x29]); (0x1f11f, 0x1f11f, Std3_mapped, Some [0x28; 0x70; 0x29]); (0x1f120, 0x1f120, Std3_mapped, Some [0x28; 0x71; 0x29]);
   (0x1f121, 0x1f121, Std3_mapped, Some [0x28; 0x72; 0x29]); (0x1f122, 0x1f122, Std3_mapped, Some [0x28; 0x73; 0x29]); (0x1f123, 0x1f123, Std3_mapped, Some [0x28; 0x74; 0x29]);
   (0x1f124, 0x1f124, Std3_mapped, Some [0x28; 0x75; 0x29]); (0x1f125, 0x1f125, Std3_mapped, Some [0x28; 0x76; 0x29]); (0x1f126, 0x1f126, Std3_mapped, Some [0x28; 0x77; 0x29]);
   (0x1f127, 0x1f127, Std3_mapped, Some [0x28; 0x78; 0x29]); (0x1f128, 0x1f128, Std3_mapped, Some [0x28; 0x79; 0x29]); (0x1f129, 0x1f129, Std3_mapped, Some [0x28; 0x7a; 0x29]);
   (0x1f12a, 0x1f12a, Mapped, Some [0x3014; 0x73; 0x3015]); (0x1f12b, 0x1f12b, Mapped, Some [0x63]); (0x1f12c, 0x1f12c, Mapped, Some [0x72]);
   (0x1f12d, 0x1f12d, Mapped, Some [0x63; 0x64]); (0x1f12e, 0x1f12e, Mapped, Some [0x77; 0x7a]); (0x1f12f, 0x1f12f, Valid, Some []);
   (0x1f130, 0x1f130, Mapped, Some [0x61]); (0x1f131, 0x1f131, Mapped, Some [0x62]); (0x1f132, 0x1f132, Mapped, Some [0x63]);
   (0x1f133, 0x1f133, Mapped, Some [0x64]); (0x1f134, 0x1f134, Mapped, Some [0x65]); (0x1f135, 0x1f135, Mapped, Some [0x66]);
   (0x1f136, 0x1f136, Mapped, Some [0x67]); (0x1f137, 0x1f137, Mapped, Some [0x68]); (0x1f138, 0x1f138, Mapped, Some [0x69]);
   (0x1f139, 0x1f139, Mapped, Some [0x6a]); (0x1f13a, 0x1f13a, Mapped, Some [0x6b]); (0x1f13b, 0x1f13b, Mapped, Some [0x6c]);
   (0x1f13c, 0x1f13c, Mapped, Some [0x6d]); (0x1f13d, 0x1f13d, Mapped, Some [0x6e]); (0x1f13e, 0x1f13e, Mapped, Some [0x6f]);
   (0x1f13f, 0x1f13f, Mapped, Some [0x70]); (0x1f140, 0x1f140, Mapped, Some [0x71]); (0x1f141, 0x1f141, Mapped, Some [0x72]);
   (0x1f142, 0x1f142, Mapped, Some [0x73]); (0x1f143, 0x1f143, Mapped, Some [0x74]); (0x1f144, 0x1f144, Mapped, Some [0x75]);
   (0x1f145, 0x1f145, Mapped, Some [0x76]); (0x1f146, 0x1f146, Mapped, Some [0x77]); (0x1f147, 0x1f147, Mapped, Some [0x78]);
   (0x1f148, 0x1f148, Mapped, Some [0x79]); (0x1f149, 0x1f149, Mapped, Some [0x7a]); (0x1f14a, 0x1f14a, Mapped, Some [0x68; 0x76]);
   (0x1f14b, 0x1f14b, Mapped, Some [0x6d; 0x76]); (0x1f14c, 0x1f14c, Mapped, Some [0x73; 0x64]); (0x1f14d, 0x1f14d, Mapped, Some [0x73; 0x73]);
   (0x1f14e, 0x1f14e, Mapped, Some [0x70; 0x70; 0x76]); (0x1f14f, 0x1f14f, Mapped, Some [0x77; 0x63]); (0x1f150, 0x1f156, Valid, Some []);
   (0x1f157, 0x1f157, Valid, Some []); (0x1f158, 0x1f15e, Valid, Some []); (0x1f15f, 0x1f15f, Valid, Some []);
   (0x1f160, 0x1f169, Valid, Some []); (0x1f16a, 0x1f16a, Mapped, Some [0x6d; 0x63]); (0x1f16b, 0x1f16b, Mapped, Some [0x6d; 0x64]);
   (0x1f16c, 0x1f16c, Mapped, Some [0x6d; 0x72]); (0x1f16d, 0x1f16f, Valid, Some []); (0x1f170, 0x1f178, Valid, Some []);
   (0x1f179, 0x1f179, Valid, Some []); (0x1f17a, 0x1f17a, Valid, Some []); (0x1f17b, 0x1f17c, Valid, Some []);
   (0x1f17d, 0x1f17e, Valid, Some []); (0x1f17f, 0x1f17f, Valid, Some []); (0x1f180, 0x1f189, Valid, Some []);
   (0x1f18a, 0x1f18d, Valid, Some []); (0x1f18e, 0x1f18f, Valid, Some []); (0x1f190, 0x1f190, Mapped, Some [0x64; 0x6a]);
   (0x1f191, 0x1f19a, Valid, Some []); (0x1f19b, 0x1f1ac, Valid, Some []); (0x1f1ad, 0x1f1ad, Valid, Some []);
   (0x1f1ae, 0x1f1e5, Disallowed, None); (0x1f1e6, 0x1f1ff, Valid, Some []); (0x1f200, 0x1f200, Mapped, Some [0x307b; 0x304b]);
   (0x1f201, 0x1f201, Mapped, Some [0x30b3; 0x30b3]); (0x1f202, 0x1f202, Mapped, Some [0x30b5]); (0x1f203, 0x1f20f, Disallowed, None);
   (0x1f210, 0x1f210, Mapped, Some [0x624b]); (0x1f211, 0x1f211, Mapped, Some [0x5b57]); (0x1f212, 0x1f212, Mapped, Some [0x53cc]);
   (0x1f213, 0x1f213, Mapped, Some [0x30c7]); (0x1f214, 0x1f214, Mapped, Some [0x4e8c]); (0x1f215, 0x1f215, Mapped, Some [0x591a]);
   (0x1f216, 0x1f216, Mapped, Some [0x89e3]); (0x1f217, 0x1f217, Mapped, Some [0x5929]); (0x1f218, 0x1f218, Mapped, Some [0x4ea4]);
   (0x1f219, 0x1f219, Mapped, Some [0x6620]); (0x1f21a, 0x1f21a, Mapped, Some [0x7121]); (0x1f21b, 0x1f21b, Mapped, Some [0x6599]);
   (0x1f21c, 0x1f21c, Mapped, Some [0x524d]); (0x1f21d, 0x1f21d, Mapped, Some [0x5f8c]); (0x1f21e, 0x1f21e, Mapped, Some [0x518d]);
   (0x1f21f, 0x1f21f, Mapped, Some [0x65b0]); (0x1f220, 0x1f220, Mapped, Some [0x521d]); (0x1f221, 0x1f221, Mapped, Some [0x7d42]);
   (0x1f222, 0x1f222, Mapped, Some [0x751f]); (0x1f223, 0x1f223, Mapped, Some [0x8ca9]); (0x1f224, 0x1f224, Mapped, Some [0x58f0]);
   (0x1f225, 0x1f225, Mapped, Some [0x5439]); (0x1f226, 0x1f226, Mapped, Some [0x6f14]); (0x1f227, 0x1f227, Mapped, Some [0x6295]);
   (0x1f228, 0x1f228, Mapped, Some [0x6355]); (0x1f229, 0x1f229, Mapped, Some [0x4e00]); (0x1f22a, 0x1f22a, Mapped, Some [0x4e09]);
   (0x1f22b, 0x1f22b, Mapped, Some [0x904a]); (0x1f22c, 0x1f22c, Mapped, Some [0x5de6]); (0x1f22d, 0x1f22d, Mapped, Some [0x4e2d]);
   (0x1f22e, 0x1f22e, Mapped, Some [0x53f3]); (0x1f22f, 0x1f22f, Mapped, Some [0x6307]); (0x1f230, 0x1f230, Mapped, Some [0x8d70]);
   (0x1f231, 0x1f231, Mapped, Some [0x6253]); (0x1f232, 0x1f232, Mapped, Some [0x7981]); (0x1f233, 0x1f233, Mapped, Some [0x7a7a]);
   (0x1f234, 0x1f234, Mapped, Some [0x5408]); (0x1f235, 0x1f235, Mapped, Some [0x6e80]); (0x1f236, 0x1f236, Mapped, Some [0x6709]);
   (0x1f237, 0x1f237, Mapped, Some [0x6708]); (0x1f238, 0x1f238, Mapped, Some [0x7533]); (0x1f239, 0x1f239, Mapped, Some [0x5272]);
   (0x1f23a, 0x1f23a, Mapped, Some [0x55b6]); (0x1f23b, 0x1f23b, Mapped, Some [0x914d]); (0x1f23c, 0x1f23f, Disallowed, None);
   (0x1f240, 0x1f240, Mapped, Some [0x3014; 0x672c; 0x3015]); (0x1f241, 0x1f241, Mapped, Some [0x3014; 0x4e09; 0x3015]); (0x1f242, 0x1f242, Mapped, Some [0x3014; 0x4e8c; 0x3015]);
   (0x1f243, 0x1f243, Mapped, Some [0x3014; 0x5b89; 0x3015]); (0x1f244, 0x1f244, Mapped, Some [0x3014; 0x70b9; 0x3015]); (0x1f245, 0x1f245, Mapped, Some [0x3014; 0x6253; 0x3015]);
   (0x1f246, 0x1f246, Mapped, Some [0x3014; 0x76d7; 0x3015]); (0x1f247, 0x1f247, Mapped, Some [0x3014; 0x52dd; 0x3015]); (0x1f248, 0x1f248, Mapped, Some [0x3014; 0x6557; 0x3015]);
   (0x1f249, 0x1f24f, Disallowed, None); (0x1f250, 0x1f250, Mapped, Some [0x5f97]); (0x1f251, 0x1f251, Mapped, Some [0x53ef]);
   (0x1f252, 0x1f25f, Disallowed, None); (0x1f260, 0x1f265, Valid, Some []); (0x1f266, 0x1f2ff, Disallowed, None);
   (0x1f300, 0x1f320, Valid, Some []); (0x1f321, 0x1f32c, Valid, Some []); (0x1f32d, 0x1f32f, Valid, Some []);
   (0x1f330, 0x1f335, Valid, Some []); (0x1f336, 0x1f336, Valid, Some []); (0x1f337, 0x1f37c, Valid, Some []);
   (0x1f37d, 0x1f37d, Valid, Some []); (0x1f37e, 0x1f37f, Valid, Some []); (0x1f380, 0x1f393, Valid, Some []);
   (0x1f394, 0x1f39f, Valid, Some []); (0x1f3a0, 0x1f3c4, Valid, Some []); (0x1f3c5, 0x1f3c5, Valid, Some []);
   (0x1f3c6, 0x1f3ca, Valid, Some []); (0x1f3cb, 0x1f3ce, Valid, Some []); (0x1f3cf, 0x1f3d3, Valid, Some []);
   (0x1f3d4, 0x1f3df, Valid, Some []); (0x1f3e0, 0x1f3f0, Valid, Some []); (0x1f3f1, 0x1f3f7, Valid, Some []);
   (0x1f3f8, 0x1f3ff, Valid, Some []); (0x1f400, 0x1f43e, Valid, Some []); (0x1f43f, 0x1f43f, Valid, Some []);
   (0x1f440, 0x1f440, Valid, Some []); (0x1f441, 0x1f441, Valid, Some []); (0x1f442, 0x1f4f7, Valid, Some []);
   (0x1f4f8, 0x1f4f8, Valid, Some []); (0x1f4f9, 0x1f4fc, Valid, Some []); (0x1f4fd, 0x1f4fe, Valid, Some []);
   (0x1f4ff, 0x1f4ff, Valid, Some []); (0x1f500, 0x1f53d, Valid, Some []); (0x1f53e, 0x1f53f, Valid, Some []);
   (0x1f540, 0x1f543, Valid, Some []); (0x1f544, 0x1f54a, Valid, Some []); (0x1f54b, 0x1f54f, Valid, Some []);
   (0x1f550, 0x1f567, Valid, Some []); (0x1f568, 0x1f579, Valid, Some []); (0x1f57a, 0x1f57a, Valid, Some []);
   (0x1f57b, 0x1f5a3, Valid, Some []); (0x1f5a4, 0x1f5a4, Valid, Some []); (0x1f5a5, 0x1f5fa, Valid, Some []);
   (0x1f5fb, 0x1f5ff, Valid, Some []); (0x1f600, 0x1f600, Valid, Some []); (0x1f601, 0x1f610, Valid, Some []);
   (0x1f611, 0x1f611, Valid, Some []); (0x1f612, 0x1f614, Valid, Some []); (0x1f615, 0x1f615, Valid, Some []);
   (0x1f616, 0x1f616, Valid, Some []); (0x1f617, 0x1f617, Valid, Some []); (0x1f618, 0x1f618, Valid, Some []);
   (0x1f619, 0x1f619, Valid, Some []); (0x1f61a, 0x1f61a, Valid, Some []); (0x1f61b, 0x1f61b, Valid, Some []);
   (0x1f61c, 0x1f61e, Valid, Some []); (0x1f61f, 0x1f61f, Valid, Some []); (0x1f620, 0x1f625, Valid, Some []);
   (0x1f626, 0x1f627, Valid, Some []); (0x1f628, 0x1f62b, Valid, Some []); (0x1f62c, 0x1f62c, Valid, Some []);
   (0x1f62d, 0x1f62d, Valid, Some []); (0x1f62e, 0x1f62f, Valid, Some []); (0x1f630, 0x1f633, Valid, Some []);
   (0x1f634, 0x1f634, Valid, Some []); (0x1f635, 0x1f640, Valid, Some []); (0x1f641, 0x1f642, Valid, Some []);
   (0x1f643, 0x1f644, Valid, Some []); (0x1f645, 0x1f64f, Valid, Some []); (0x1f650, 0x1f67f, Valid, Some []);
   (0x1f680, 0x1f6c5, Valid, Some []); (0x1f6c6, 0x1f6cf, Valid, Some []); (0x1f6d0, 0x1f6d0, Valid, Some []);
   (0x1f6d1, 0x1f6d2, Valid, Some []); (0x1f6d3, 0x1f6d4, Valid, Some []); (0x1f6d5, 0x1f6d5, Valid, Some []);
   (0x1f6d6, 0x1f6d7, Valid, Some []); (0x1f6d8, 0x1f6df, Disallowed, None); (0x1f6e0, 0x1f6ec, Valid, Some []);
   (0x1f6ed, 0x1f6ef, Disallowed, None); (0x1f6f0, 0x1f6f3, Valid, Some []); (0x1f6f4, 0x1f6f6, Valid, Some []);
   (0x1f6f7, 0x1f6f8, Valid, Some []); (0x1f6f9, 0x1f6f9, Valid, Some []); (0x1f6fa, 0x1f6fa, Valid, Some []);
   (0x1f6fb, 0x1f6fc, Valid, Some []); (0x1f6fd, 0x1f6ff, Disallowed, None); (0x1f700, 0x1f773, Valid, Some []);
   (0x1f774, 0x1f77f, Disallowed, None); (0x1f780, 0x1f7d4, Valid, Some []); (0x1f7d5, 0x1f7d8, Valid, Some []);
   (0x1f7d9, 0x1f7df, Disallowed, None); (0x1f7e0, 0x1f7eb, Valid, Some []); (0x1f7ec, 0x1f7ff, Disallowed, None);
   (0x1f800, 0x1f80b, Valid, Some []); (0x1f80c, 0x1f80f, Disallowed, None); (0x1f810, 0x1f847, Valid, Some []);
   (0x1f848, 0x1f84f, Disallowed, None); (0x1f850, 0x1f859, Valid, Some []); (0x1f85a, 0x1f85f, Disallowed, None);
   (0x1f860, 0x1f887, Valid, Some []); (0x1f888, 0x1f88f, Disallowed, None); (0x1f890, 0x1f8ad, Valid, Some []);
   (0x1f8ae, 0x1f8af, Disallowed, None); (0x1f8b0, 0x1f8b1, Valid, Some []); (0x1f8b2, 0x1f8ff, Disallowed, None);
   (0x1f900, 0x1f90b, Valid, Some []); (0x1f90c, 0x1f90c, Valid, Some []); (0x1f90d, 0x1f90f, Valid, Some []);
   (0x1f910, 0x1f918, Valid, Some []); (0x1f919, 0x1f91e, Valid, Some []); (0x1f91f, 0x1f91f, Valid, Some []);
   (0x1f920, 0x1f927, Valid, Some []); (0x1f928, 0x1f92f, Valid, Some []); (0x1f930, 0x1f930, Valid, Some []);
   (0x1f931, 0x1f932, Valid, Some []); (0x1f933, 0x1f93e, Valid, Some []); (0x1f93f, 0x1f93f, Valid, Some []);
   (0x1f940, 0x1f94b, Valid, Some []); (0x1f94c, 0x1f94c, Valid, Some []); (0x1f94d, 0x1f94f, Valid, Some []);
   (0x1f950, 0x1f95e, Valid, Some []); (0x1f95f, 0x1f96b, Valid, Some []); (0x1f96c, 0x1f970, Valid, Some []);
   (0x1f971, 0x1f971, Valid, Some []); (0x1f972, 0x1f972, Valid, Some []); (0x1f973, 0x1f976, Valid, Some []);
   (0x1f977, 0x1f978, Valid, Some []); (0x1f979, 0x1f979, Disallowed, None); (0x1f97a, 0x1f97a, Valid, Some []);
   (0x1f97b, 0x1f97b, Valid, Some []); (0x1f97c, 0x1f97f, Valid, Some []); (0x1f980, 0x1f984, Valid, Some []);
   (0x1f985, 0x1f991, Valid, Some []); (0x1f992, 0x1f997, Valid, Some []); (0x1f998, 0x1f9a2, Valid, Some []);
   (0x1f9a3, 0x1f9a4, Valid, Some []); (0x1f9a5, 0x1f9aa, Valid, Some []); (0x1f9ab, 0x1f9ad, Valid, Some []);
   (0x1f9ae, 0x1f9af, Valid, Some []); (0x1f9b0, 0x1f9b9, Valid, Some []); (0x1f9ba, 0x1f9bf, Valid, Some []);
   (0x1f9c0, 0x1f9c0, Valid, Some []); (0x1f9c1, 0x1f9c2, Valid, Some []); (0x1f9c3, 0x1f9ca, Valid, Some []);
   (0x1f9cb, 0x1f9cb, Valid, Some []); (0x1f9cc, 0x1f9cc, Disallowed, None); (0x1f9cd, 0x1f9cf, Valid, Some []);
   (0x1f9d0, 0x1f9e6, Valid, Some []); (0x1f9e7, 0x1f9ff, Valid, Some []); (0x1fa00, 0x1fa53, Valid, Some []);
   (0x1fa54, 0x1fa5f, Disallowed, None); (0x1fa60, 0x1fa6d, Valid, Some []); (0x1fa6e, 0x1fa6f, Disallowed, None);
   (0x1fa70, 0x1fa73, Valid, Some []); (0x1fa74, 0x1fa74, Valid, Some []); (0x1fa75, 0x1fa77, Disallowed, None);
   (0x1fa78, 0x1fa7a, Valid, Some []); (0x1fa7b, 0x1fa7f, Disallowed, None); (0x1fa80, 0x1fa82, Valid, Some []);
   (0x1fa83, 0x1fa86, Valid, Some []); (0x1fa87, 0x1fa8f, Disallowed, None); (0x1fa90, 0x1fa95, Valid, Some []);
   (0x1fa96, 0x1faa8, Valid, Some []); (0x1faa9, 0x1faaf, Disallowed, None); (0x1fab0, 0x1fab6, Valid, Some []);
   (0x1fab7, 0x1fabf, Disallowed, None); (0x1fac0, 0x1fac2, Valid, Some []); (0x1fac3, 0x1facf, Disallowed, None);
   (0x1fad0, 0x1fad6, Valid, Some []); (0x1fad7, 0x1faff, Disallowed, None); (0x1fb00, 0x1fb92, Valid, Some []);
   (0x1fb93, 0x1fb93, Disallowed, None); (0x1fb94, 0x1fbca, Valid, Some []); (0x1fbcb, 0x1fbef, Disallowed, None);
   (0x1fbf0, 0x1fbf0, Mapped, Some [0x30]); (0x1fbf1, 0x1fbf1, Mapped, Some [0x31]); (0x1fbf2, 0x1fbf2, Mapped, Some [0x32]);
   (0x1fbf3, 0x1fbf3, Mapped, Some [0x33]); (0x1fbf4, 0x1fbf4, Mapped, Some [0x34]); (0x1fbf5, 0x1fbf5, Mapped, Some [0x35]);
   (0x1fbf6, 0x1fbf6, Mapped, Some [0x36]); (0x1fbf7, 0x1fbf7, Mapped, Some [0x37]); (0x1fbf8, 0x1fbf8, Mapped, Some [0x38]);
   (0x1fbf9, 0x1fbf9, Mapped, Some [0x39]); (0x1fbfa, 0x1fffd, Disallowed, None); (0x1fffe, 0x1ffff, Disallowed, None);
   (0x20000, 0x2a6d6, Valid, None); (0x2a6d7, 0x2a6dd, Valid, None); (0x2a6de, 0x2a6ff, Disallowed, None);
   (0x2a700, 0x2b734, Valid, None); (0x2b735, 0x2b73f, Disallowed, None); (0x2b740, 0x2b81d, Valid, None);
   (0x2b81e, 0x2b81f, Disallowed, None); (0x2b820, 0x2cea1, Valid, None); (0x2cea2, 0x2ceaf, Disallowed, None);
   (0x2ceb0, 0x2ebe0, Valid, None); (0x2ebe1, 0x2f7ff, Disallowed, None); (0x2f800, 0x2f800, Mapped, Some [0x4e3d]);
   (0x2f801, 0x2f801, Mapped, Some [0x4e38]); (0x2f802, 0x2f802, Mapped, Some [0x4e41]); (0x2f803, 0x2f803, Mapped, Some [0x20122]);
   (0x2f804, 0x2f804, Mapped, Some [0x4f60]); (0x2f805, 0x2f805, Mapped, Some [0x4fae]); (0x2f806, 0x2f806, Mapped, Some [0x4fbb]);
   (0x2f807, 0x2f807, Mapped, Some [0x5002]); (0x2f808, 0x2f808, Mapped, Some [0x507a]); (0x2f809, 0x2f809, Mapped, Some [0x5099]);
   (0x2f80a, 0x2f80a, Mapped, Some [0x50e7]); (0x2f80b, 0x2f80b, Mapped, Some [0x50cf]); (0x2f80c, 0x2f80c, Mapped, Some [0x349e]);
   (0x2f80d, 0x2f80d, Mapped, Some [0x2063a]); (0x2f80e, 0x2f80e, Mapped, Some [0x514d]); (0x2f80f, 0x2f80f, Mapped, Some [0x5154]);
   (0x2f810, 0x2f810, Mapped, Some [0x5164]); (0x2f811, 0x2f811, Mapped, Some [0x5177]); (0x2f812, 0x2f812, Mapped, Some [0x2051c]);
   (0x2f813, 0x2f813, Mapped, Some [0x34b9]); (0x2f814, 0x2f814, Mapped, Some [0x5167]); (0x2f815, 0x2f815, Mapped, Some [0x518d]);
   (0x2f816, 0x2f816, Mapped, Some [0x2054b]); (0x2f817, 0x2f817, Mapped, Some [0x5197]); (0x2f818, 0x2f818, Mapped, Some [0x51a4]);
   (0x2f819, 0x2f819, Mapped, Some [0x4ecc]); (0x2f81a, 0x2f81a, Mapped, Some [0x51ac]); (0x2f81b, 0x2f81b, Mapped, Some [0x51b5]);
   (0x2f81c, 0x2f81c, Mapped, Some [0x291df]); (0x2f81d, 0x2f81d, Mapped, Some [0x51f5]); (0x2f81e, 0x2f81e, Mapped, Some [0x5203]);
   (0x2f81f, 0x2f81f, Mapped, Some [0x34df]); (0x2f820, 0x2f820, Mapped, Some [0x523b]); (0x2f821, 0x2f821, Mapped, Some [0x5246]);
   (0x2f822, 0x2f822, Mapped, Some [0x5272]); (0x2f823, 0x2f823, Mapped, Some [0x5277]); (0x2f824, 0x2f824, Mapped, Some [0x3515]);
   (0x2f825, 0x2f825, Mapped, Some [0x52c7]); (0x2f826, 0x2f826, Mapped, Some [0x52c9]); (0x2f827, 0x2f827, Mapped, Some [0x52e4]);
   (0x2f828, 0x2f828, Mapped, Some [0x52fa]); (0x2f829, 0x2f829, Mapped, Some [0x5305]); (0x2f82a, 0x2f82a, Mapped, Some [0x5306]);
   (0x2f82b, 0x2f82b, Mapped, Some [0x5317]); (0x2f82c, 0x2f82c, Mapped, Some [0x5349]); (0x2f82d, 0x2f82d, Mapped, Some [0x5351]);
   (0x2f82e, 0x2f82e, Mapped, Some [0x535a]); (0x2f82f, 0x2f82f, Mapped, Some [0x5373]); (0x2f830, 0x2f830, Mapped, Some [0x537d]);
   (0x2f831, 0x2f833, Mapped, Some [0x537f]); (0x2f834, 0x2f834, Mapped, Some [0x20a2c]); (0x2f835, 0x2f835, Mapped, Some [0x7070]);
   (0x2f836, 0x2f836, Mapped, Some [0x53ca]); (0x2f837, 0x2f837, Mapped, Some [0x53df]); (0x2f838, 0x2f838, Mapped, Some [0x20b63]);
   (0x2f839, 0x2f839, Mapped, Some [0x53eb]); (0x2f83a, 0x2f83a, Mapped, Some [0x53f1]); (0x2f83b, 0x2f83b, Mapped, Some [0x5406]);
   (0x2f83c, 0x2f83c, Mapped, Some [0x549e]); (0x2f83d, 0x2f83d, Mapped, Some [0x5438]); (0x2f83e, 0x2f83e, Mapped, Some [0x5448]);
   (0x2f83f, 0x2f83f, Mapped, Some [0x5468]); (0x2f840, 0x2f840, Mapped, Some [0x54a2]); (0x2f841, 0x2f841, Mapped, Some [0x54f6]);
   (0x2f842, 0x2f842, Mapped, Some [0x5510]); (0x2f843, 0x2f843, Mapped, Some [0x5553]); (0x2f844, 0x2f844, Mapped, Some [0x5563]);
   (0x2f845, 0x2f846, Mapped, Some [0x5584]); (0x2f847, 0x2f847, Mapped, Some [0x5599]); (0x2f848, 0x2f848, Mapped, Some [0x55ab]);
   (0x2f849, 0x2f849, Mapped, Some [0x55b3]); (0x2f84a, 0x2f84a, Mapped, Some [0x55c2]); (0x2f84b, 0x2f84b, Mapped, Some [0x5716]);
   (0x2f84c, 0x2f84c, Mapped, Some [0x5606]); (0x2f84d, 0x2f84d, Mapped, Some [0x5717]); (0x2f84e, 0x2f84e, Mapped, Some [0x5651]);
   (0x2f84f, 0x2f84f, Mapped, Some [0x5674]); (0x2f850, 0x2f850, Mapped, Some [0x5207]); (0x2f851, 0x2f851, Mapped, Some [0x58ee]);
   (0x2f852, 0x2f852, Mapped, Some [0x57ce]); (0x2f853, 0x2f853, Mapped, Some [0x57f4]); (0x2f854, 0x2f854, Mapped, Some [0x580d]);
   (0x2f855, 0x2f855, Mapped, Some [0x578b]); (0x2f856, 0x2f856, Mapped, Some [0x5832]); (0x2f857, 0x2f857, Mapped, Some [0x5831]);
   (0x2f858, 0x2f858, Mapped, Some [0x58ac]); (0x2f859, 0x2f859, Mapped, Some [0x214e4]); (0x2f85a, 0x2f85a, Mapped, Some [0x58f2]);
   (0x2f85b, 0x2f85b, Mapped, Some [0x58f7]); (0x2f85c, 0x2f85c, Mapped, Some [0x5906]); (0x2f85d, 0x2f85d, Mapped, Some [0x591a]);
   (0x2f85e, 0x2f85e, Mapped, Some [0x5922]); (0x2f85f, 0x2f85f, Mapped, Some [0x5962]); (0x2f860, 0x2f860, Mapped, Some [0x216a8]);
   (0x2f861, 0x2f861, Mapped, Some [0x216ea]); (0x2f862, 0x2f862, Mapped, Some [0x59ec]); (0x2f863, 0x2f863, Mapped, Some [0x5a1b]);
   (0x2f864, 0x2f864, Mapped, Some [0x5a27]); (0x2f865, 0x2f865, Mapped, Some [0x59d8]); (0x2f866, 0x2f866, Mapped, Some [0x5a66]);
   (0x2f867, 0x2f867, Mapped, Some [0x36ee]); (0x2f868, 0x2f868, Disallowed, None); (0x2f869, 0x2f869, Mapped, Some [0x5b08]);
   (0x2f86a, 0x2f86b, Mapped, Some [0x5b3e]); (0x2f86c, 0x2f86c, Mapped, Some [0x219c8]); (0x2f86d, 0x2f86d, Mapped, Some [0x5bc3]);
   (0x2f86e, 0x2f86e, Mapped, Some [0x5bd8]); (0x2f86f, 0x2f86f, Mapped, Some [0x5be7]); (0x2f870, 0x2f870, Mapped, Some [0x5bf3]);
   (0x2f871, 0x2f871, Mapped, Some [0x21b18]); (0x2f872, 0x2f872, Mapped, Some [0x5bff]); (0x2f873, 0x2f873, Mapped, Some [0x5c06]);
   (0x2f874, 0x2f874, Disallowed, None); (0x2f875, 0x2f875, Mapped, Some [0x5c22]); (0x2f876, 0x2f876, Mapped, Some [0x3781]);
   (0x2f877, 0x2f877, Mapped, Some [0x5c60]); (0x2f878, 0x2f878, Mapped, Some [0x5c6e]); (0x2f879, 0x2f879, Mapped, Some [0x5cc0]);
   (0x2f87a, 0x2f87a, Mapped, Some [0x5c8d]); (0x2f87b, 0x2f87b, Mapped, Some [0x21de4]); (0x2f87c, 0x2f87c, Mapped, Some [0x5d43]);
   (0x2f87d, 0x2f87d, Mapped, Some [0x21de6]); (0x2f87e, 0x2f87e, Mapped, Some [0x5d6e]); (0x2f87f, 0x2f87f, Mapped, Some [0x5d6b]);
   (0x2f880, 0x2f880, Mapped, Some [0x5d7c]); (0x2f881, 0x2f881, Mapped, Some [0x5de1]); (0x2f882, 0x2f882, Mapped, Some [0x5de2]);
   (0x2f883, 0x2f883, Mapped, Some [0x382f]); (0x2f884, 0x2f884, Mapped, Some [0x5dfd]); (0x2f885, 0x2f885, Mapped, Some [0x5e28]);
   (0x2f886, 0x2f886, Mapped, Some [0x5e3d]); (0x2f887, 0x2f887, Mapped, Some [0x5e69]); (0x2f888, 0x2f888, Mapped, Some [0x3862]);
   (0x2f889, 0x2f889, Mapped, Some [0x22183]); (0x2f88a, 0x2f88a, Mapped, Some [0x387c]); (0x2f88b, 0x2f88b, Mapped, Some [0x5eb0]);
   (0x2f88c, 0x2f88c, Mapped, Some [0x5eb3]); (0x2f88d, 0x2f88d, Mapped, Some [0x5eb6]); (0x2f88e, 0x2f88e, Mapped, Some [0x5eca]);
   (0x2f88f, 0x2f88f, Mapped, Some [0x2a392]); (0x2f890, 0x2f890, Mapped, Some [0x5efe]); (0x2f891, 0x2f892, Mapped, Some [0x22331]);
   (0x2f893, 0x2f893, Mapped, Some [0x8201]); (0x2f894, 0x2f895, Mapped, Some [0x5f22]); (0x2f896, 0x2f896, Mapped, Some [0x38c7]);
   (0x2f897, 0x2f897, Mapped, Some [0x232b8]); (0x2f898, 0x2f898, Mapped, Some [0x261da]); (0x2f899, 0x2f899, Mapped, Some [0x5f62]);
   (0x2f89a, 0x2f89a, Mapped, Some [0x5f6b]); (0x2f89b, 0x2f89b, Mapped, Some [0x38e3]); (0x2f89c, 0x2f89c, Mapped, Some [0x5f9a]);
   (0x2f89d, 0x2f89d, Mapped, Some [0x5fcd]); (0x2f89e, 0x2f89e, Mapped, Some [0x5fd7]); (0x2f89f, 0x2f89f, Mapped, Some [0x5ff9]);
   (0x2f8a0, 0x2f8a0, Mapped, Some [0x6081]); (0x2f8a1, 0x2f8a1, Mapped, Some [0x393a]); (0x2f8a2, 0x2f8a2, Mapped, Some [0x391c]);
   (0x2f8a3, 0x2f8a3, Mapped, Some [0x6094]); (0x2f8a4, 0x2f8a4, Mapped, Some [0x226d4]); (0x2f8a5, 0x2f8a5, Mapped, Some [0x60c7]);
   (0x2f8a6, 0x2f8a6, Mapped, Some [0x6148]); (0x2f8a7, 0x2f8a7, Mapped, Some [0x614c]); (0x2f8a8, 0x2f8a8, Mapped, Some [0x614e]);
   (0x2f8a9, 0x2f8a9, Mapped, Some [0x614c]); (0x2f8aa, 0x2f8aa, Mapped, Some [0x617a]); (0x2f8ab, 0x2f8ab, Mapped, Some [0x618e]);
   (0x2f8ac, 0x2f8ac, Mapped, Some [0x61b2]); (0x2f8ad, 0x2f8ad, Mapped, Some [0x61a4]); (0x2f8ae, 0x2f8ae, Mapped, Some [0x61af]);
   (0x2f8af, 0x2f8af, Mapped, Some [0x61de]); (0x2f8b0, 0x2f8b0, Mapped, Some [0x61f2]); (0x2f8b1, 0x2f8b1, Mapped, Some [0x61f6]);
   (0x2f8b2, 0x2f8b2, Mapped, Some [0x6210]); (0x2f8b3, 0x2f8b3, Mapped, Some [0x621b]); (0x2f8b4, 0x2f8b4, Mapped, Some [0x625d]);
   (0x2f8b5, 0x2f8b5, Mapped, Some [0x62b1]); (0x2f8b6, 0x2f8b6, Mapped, Some [0x62d4]); (0x2f8b7, 0x2f8b7, Mapped, Some [0x6350]);
   (0x2f8b8, 0x2f8b8, Mapped, Some [0x22b0c]); (0x2f8b9, 0x2f8b9, Mapped, Some [0x633d]); (0x2f8ba, 0x2f8ba, Mapped, Some [0x62fc]);
   (0x2f8bb, 0x2f8bb, Mapped, Some [0x6368]); (0x2f8bc, 0x2f8bc, Mapped, Some [0x6383]); (0x2f8bd, 0x2f8bd, Mapped, Some [0x63e4]);
   (0x2f8be, 0x2f8be, Mapped, Some [0x22bf1]); (0x2f8bf, 0x2f8bf, Mapped, Some [0x6422]); (0x2f8c0, 0x2f8c0, Mapped, Some [0x63c5]);
   (0x2f8c1, 0x2f8c1, Mapped, Some [0x63a9]); (0x2f8c2, 0x2f8c2, Mapped, Some [0x3a2e]); (0x2f8c3, 0x2f8c3, Mapped, Some [0x6469]);
   (0x2f8c4, 0x2f8c4, Mapped, Some [0x647e]); (0x2f8c5, 0x2f8c5, Mapped, Some [0x649d]); (0x2f8c6, 0x2f8c6, Mapped, Some [0x6477]);
   (0x2f8c7, 0x2f8c7, Mapped, Some [0x3a6c]); (0x2f8c8, 0x2f8c8, Mapped, Some [0x654f]); (0x2f8c9, 0x2f8c9, Mapped, Some [0x656c]);
   (0x2f8ca, 0x2f8ca, Mapped, Some [0x2300a]); (0x2f8cb, 0x2f8cb, Mapped, Some [0x65e3]); (0x2f8cc, 0x2f8cc, Mapped, Some [0x66f8]);
   (0x2f8cd, 0x2f8cd, Mapped, Some [0x6649]); (0x2f8ce, 0x2f8ce, Mapped, Some [0x3b19]); (0x2f8cf, 0x2f8cf, Mapped, Some [0x6691]);
   (0x2f8d0, 0x2f8d0, Mapped, Some [0x3b08]); (0x2f8d1, 0x2f8d1, Mapped, Some [0x3ae4]); (0x2f8d2, 0x2f8d2, Mapped, Some [0x5192]);
   (0x2f8d3, 0x2f8d3, Mapped, Some [0x5195]); (0x2f8d4, 0x2f8d4, Mapped, Some [0x6700]); (0x2f8d5, 0x2f8d5, Mapped, Some [0x669c]);
   (0x2f8d6, 0x2f8d6, Mapped, Some [0x80ad]); (0x2f8d7, 0x2f8d7, Mapped, Some [0x43d9]); (0x2f8d8, 0x2f8d8, Mapped, Some [0x6717]);
   (0x2f8d9, 0x2f8d9, Mapped, Some [0x671b]); (0x2f8da, 0x2f8da, Mapped, Some [0x6721]); (0x2f8db, 0x2f8db, Mapped, Some [0x675e]);
   (0x2f8dc, 0x2f8dc, Mapped, Some [0x6753]); (0x2f8dd, 0x2f8dd, Mapped, Some [0x233c3]); (0x2f8de, 0x2f8de, Mapped, Some [0x3b49]);
   (0x2f8df, 0x2f8df, Mapped, Some [0x67fa]); (0x2f8e0, 0x2f8e0, Mapped, Some [0x6785]); (0x2f8e1, 0x2f8e1, Mapped, Some [0x6852]);
   (0x2f8e2, 0x2f8e2, Mapped, Some [0x6885]); (0x2f8e3, 0x2f8e3, Mapped, Some [0x2346d]); (0x2f8e4, 0x2f8e4, Mapped, Some [0x688e]);
   (0x2f8e5, 0x2f8e5, Mapped, Some [0x681f]); (0x2f8e6, 0x2f8e6, Mapped, Some [0x6914]); (0x2f8e7, 0x2f8e7, Mapped, Some [0x3b9d]);
   (0x2f8e8, 0x2f8e8, Mapped, Some [0x6942]); (0x2f8e9, 0x2f8e9, Mapped, Some [0x69a3]); (0x2f8ea, 0x2f8ea, Mapped, Some [0x69ea]);
   (0x2f8eb, 0x2f8eb, Mapped, Some [0x6aa8]); (0x2f8ec, 0x2f8ec, Mapped, Some [0x236a3]); (0x2f8ed, 0x2f8ed, Mapped, Some [0x6adb]);
   (0x2f8ee, 0x2f8ee, Mapped, Some [0x3c18]); (0x2f8ef, 0x2f8ef, Mapped, Some [0x6b21]); (0x2f8f0, 0x2f8f0, Mapped, Some [0x238a7]);
   (0x2f8f1, 0x2f8f1, Mapped, Some [0x6b54]); (0x2f8f2, 0x2f8f2, Mapped, Some [0x3c4e]); (0x2f8f3, 0x2f8f3, Mapped, Some [0x6b72]);
   (0x2f8f4, 0x2f8f4, Mapped, Some [0x6b9f]); (0x2f8f5, 0x2f8f5, Mapped, Some [0x6bba]); (0x2f8f6, 0x2f8f6, Mapped, Some [0x6bbb]);
   (0x2f8f7, 0x2f8f7, Mapped, Some [0x23a8d]); (0x2f8f8, 0x2f8f8, Mapped, Some [0x21d0b]); (0x2f8f9, 0x2f8f9, Mapped, Some [0x23afa]);
   (0x2f8fa, 0x2f8fa, Mapped, Some [0x6c4e]); (0x2f8fb, 0x2f8fb, Mapped, Some [0x23cbc]); (0x2f8fc, 0x2f8fc, Mapped, Some [0x6cbf]);
   (0x2f8fd, 0x2f8fd, Mapped, Some [0x6ccd]); (0x2f8fe, 0x2f8fe, Mapped, Some [0x6c67]); (0x2f8ff, 0x2f8ff, Mapped, Some [0x6d16]);
   (0x2f900, 0x2f900, Mapped, Some [0x6d3e]); (0x2f901, 0x2f901, Mapped, Some [0x6d77]); (0x2f902, 0x2f902, Mapped, Some [0x6d41]);
   (0x2f903, 0x2f903, Mapped, Some [0x6d69]); (0x2f904, 0x2f904, Mapped, Some [0x6d78]); (0x2f905, 0x2f905, Mapped, Some [0x6d85]);
   (0x2f906, 0x2f906, Mapped, Some [0x23d1e]); (0x2f907, 0x2f907, Mapped, Some [0x6d34]); (0x2f908, 0x2f908, Mapped, Some [0x6e2f]);
   (0x2f909, 0x2f909, Mapped, Some [0x6e6e]); (0x2f90a, 0x2f90a, Mapped, Some [0x3d33]); (0x2f90b, 0x2f90b, Mapped, Some [0x6ecb]);
   (0x2f90c, 0x2f90c, Mapped, Some [0x6ec7]); (0x2f90d, 0x2f90d, Mapped, Some [0x23ed1]); (0x2f90e, 0x2f90e, Mapped, Some [0x6df9]);
   (0x2f90f, 0x2f90f, Mapped, Some [0x6f6e]); (0x2f910, 0x2f910, Mapped, Some [0x23f5e]); (0x2f911, 0x2f911, Mapped, Some [0x23f8e]);
   (0x2f912, 0x2f912, Mapped, Some [0x6fc6]); (0x2f913, 0x2f913, Mapped, Some [0x7039]); (0x2f914, 0x2f914, Mapped, Some [0x701e]);
   (0x2f915, 0x2f915, Mapped, Some [0x701b]); (0x2f916, 0x2f916, Mapped, Some [0x3d96]); (0x2f917, 0x2f917, Mapped, Some [0x704a]);
   (0x2f918, 0x2f918, Mapped, Some [0x707d]); (0x2f919, 0x2f919, Mapped, Some [0x7077]); (0x2f91a, 0x2f91a, Mapped, Some [0x70ad]);
   (0x2f91b, 0x2f91b, Mapped, Some [0x20525]); (0x2f91c, 0x2f91c, Mapped, Some [0x7145]); (0x2f91d, 0x2f91d, Mapped, Some [0x24263]);
   (0x2f91e, 0x2f91e, Mapped, Some [0x719c]); (0x2f91f, 0x2f91f, Disallowed, None); (0x2f920, 0x2f920, Mapped, Some [0x7228]);
   (0x2f921, 0x2f921, Mapped, Some [0x7235]); (0x2f922, 0x2f922, Mapped, Some [0x7250]); (0x2f923, 0x2f923, Mapped, Some [0x24608]);
   (0x2f924, 0x2f924, Mapped, Some [0x7280]); (0x2f925, 0x2f925, Mapped, Some [0x7295]); (0x2f926, 0x2f926, Mapped, Some [0x24735]);
   (0x2f927, 0x2f927, Mapped, Some [0x24814]); (0x2f928, 0x2f928, Mapped, Some [0x737a]); (0x2f929, 0x2f929, Mapped, Some [0x738b]);
   (0x2f92a, 0x2f92a, Mapped, Some [0x3eac]); (0x2f92b, 0x2f92b, Mapped, Some [0x73a5]); (0x2f92c, 0x2f92d, Mapped, Some [0x3eb8]);
   (0x2f92e, 0x2f92e, Mapped, Some [0x7447]); (0x2f92f, 0x2f92f, Mapped, Some [0x745c]); (0x2f930, 0x2f930, Mapped, Some [0x7471]);
   (0x2f931, 0x2f931, Mapped, Some [0x7485]); (0x2f932, 0x2f932, Mapped, Some [0x74ca]); (0x2f933, 0x2f933, Mapped, Some [0x3f1b]);
   (0x2f934, 0x2f934, Mapped, Some [0x7524]); (0x2f935, 0x2f935, Mapped, Some [0x24c36]); (0x2f936, 0x2f936, Mapped, Some [0x753e]);
   (0x2f937, 0x2f937, Mapped, Some [0x24c92]); (0x2f938, 0x2f938, Mapped, Some [0x7570]); (0x2f939, 0x2f939, Mapped, Some [0x2219f]);
   (0x2f93a, 0x2f93a, Mapped, Some [0x7610]); (0x2f93b, 0x2f93b, Mapped, Some [0x24fa1]); (0x2f93c, 0x2f93c, Mapped, Some [0x24fb8]);
   (0x2f93d, 0x2f93d, Mapped, Some [0x25044]); (0x2f93e, 0x2f93e, Mapped, Some [0x3ffc]); (0x2f93f, 0x2f93f, Mapped, Some [0x4008]);
   (0x2f940, 0x2f940, Mapped, Some [0x76f4]); (0x2f941, 0x2f941, Mapped, Some [0x250f3]); (0x2f942, 0x2f942, Mapped, Some [0x250f2]);
   (0x2f943, 0x2f943, Mapped, Some [0x25119]); (0x2f944, 0x2f944, Mapped, Some [0x25133]); (0x2f945, 0x2f945, Mapped, Some [0x771e]);
   (0x2f946, 0x2f947, Mapped, Some [0x771f]); (0x2f948, 0x2f948, Mapped, Some [0x774a]); (0x2f949, 0x2f949, Mapped, Some [0x4039]);
   (0x2f94a, 0x2f94a, Mapped, Some [0x778b]); (0x2f94b, 0x2f94b, Mapped, Some [0x4046]); (0x2f94c, 0x2f94c, Mapped, Some [0x4096]);
   (0x2f94d, 0x2f94d, Mapped, Some [0x2541d]); (0x2f94e, 0x2f94e, Mapped, Some [0x784e]); (0x2f94f, 0x2f94f, Mapped, Some [0x788c]);
   (0x2f950, 0x2f950, Mapped, Some [0x78cc]); (0x2f951, 0x2f951, Mapped, Some [0x40e3]); (0x2f952, 0x2f952, Mapped, Some [0x25626]);
   (0x2f953, 0x2f953, Mapped, Some [0x7956]); (0x2f954, 0x2f954, Mapped, Some [0x2569a]); (0x2f955, 0x2f955, Mapped, Some [0x256c5]);
   (0x2f956, 0x2f956, Mapped, Some [0x798f]); (0x2f957, 0x2f957, Mapped, Some [0x79eb]); (0x2f958, 0x2f958, Mapped, Some [0x412f]);
   (0x2f959, 0x2f959, Mapped, Some [0x7a40]); (0x2f95a, 0x2f95a, Mapped, Some [0x7a4a]); (0x2f95b, 0x2f95b, Mapped, Some [0x7a4f]);
   (0x2f95c, 0x2f95c, Mapped, Some [0x2597c]); (0x2f95d, 0x2f95e, Mapped, Some [0x25aa7]); (0x2f95f, 0x2f95f, Disallowed, None);
   (0x2f960, 0x2f960, Mapped, Some [0x4202]); (0x2f961, 0x2f961, Mapped, Some [0x25bab]); (0x2f962, 0x2f962, Mapped, Some [0x7bc6]);
   (0x2f963, 0x2f963, Mapped, Some [0x7bc9]); (0x2f964, 0x2f964, Mapped, Some [0x4227]); (0x2f965, 0x2f965, Mapped, Some [0x25c80]);
   (0x2f966, 0x2f966, Mapped, Some [0x7cd2]); (0x2f967, 0x2f967, Mapped, Some [0x42a0]); (0x2f968, 0x2f968, Mapped, Some [0x7ce8]);
   (0x2f969, 0x2f969, Mapped, Some [0x7ce3]); (0x2f96a, 0x2f96a, Mapped, Some [0x7d00]); (0x2f96b, 0x2f96b, Mapped, Some [0x25f86]);
   (0x2f96c, 0x2f96c, Mapped, Some [0x7d63]); (0x2f96d, 0x2f96d, Mapped, Some [0x4301]); (0x2f96e, 0x2f96e, Mapped, Some [0x7dc7]);
   (0x2f96f, 0x2f96f, Mapped, Some [0x7e02]); (0x2f970, 0x2f970, Mapped, Some [0x7e45]); (0x2f971, 0x2f971, Mapped, Some [0x4334]);
   (0x2f972, 0x2f972, Mapped, Some [0x26228]); (0x2f973, 0x2f973, Mapped, Some [0x26247]); (0x2f974, 0x2f974, Mapped, Some [0x4359]);
   (0x2f975, 0x2f975, Mapped, Some [0x262d9]); (0x2f976, 0x2f976, Mapped, Some [0x7f7a]); (0x2f977, 0x2f977, Mapped, Some [0x2633e]);
   (0x2f978, 0x2f978, Mapped, Some [0x7f95]); (0x2f979, 0x2f979, Mapped, Some [0x7ffa]); (0x2f97a, 0x2f97a, Mapped, Some [0x8005]);
   (0x2f97b, 0x2f97b, Mapped, Some [0x264da]); (0x2f97c, 0x2f97c, Mapped, Some [0x26523]); (0x2f97d, 0x2f97d, Mapped, Some [0x8060]);
   (0x2f97e, 0x2f97e, Mapped, Some [0x265a8]); (0x2f97f, 0x2f97f, Mapped, Some [0x8070]); (0x2f980, 0x2f980, Mapped, Some [0x2335f]);
   (0x2f981, 0x2f981, Mapped, Some [0x43d5]); (0x2f982, 0x2f982, Mapped, Some [0x80b2]); (0x2f983, 0x2f983, Mapped, Some [0x8103]);
   (0x2f984, 0x2f984, Mapped, Some [0x440b]); (0x2f985, 0x2f985, Mapped, Some [0x813e]); (0x2f986, 0x2f986, Mapped, Some [0x5ab5]);
   (0x2f987, 0x2f987, Mapped, Some [0x267a7]); (0x2f988, 0x2f988, Mapped, Some [0x267b5]); (0x2f989, 0x2f989, Mapped, Some [0x23393]);
   (0x2f98a, 0x2f98a, Mapped, Some [0x2339c]); (0x2f98b, 0x2f98b, Mapped, Some [0x8201]); (0x2f98c, 0x2f98c, Mapped, Some [0x8204]);
   (0x2f98d, 0x2f98d, Mapped, Some [0x8f9e]); (0x2f98e, 0x2f98e, Mapped, Some [0x446b]); (0x2f98f, 0x2f98f, Mapped, Some [0x8291]);
   (0x2f990, 0x2f990, Mapped, Some [0x828b]); (0x2f991, 0x2f991, Mapped, Some [0x829d]); (0x2f992, 0x2f992, Mapped, Some [0x52b3]);
   (0x2f993, 0x2f993, Mapped, Some [0x82b1]); (0x2f994, 0x2f994, Mapped, Some [0x82b3]); (0x2f995, 0x2f995, Mapped, Some [0x82bd]);
   (0x2f996, 0x2f996, Mapped, Some [0x82e6]); (0x2f997, 0x2f997, Mapped, Some [0x26b3c]); (0x2f998, 0x2f998, Mapped, Some [0x82e5]);
   (0x2f999, 0x2f999, Mapped, Some [0x831d]); (0x2f99a, 0x2f99a, Mapped, Some [0x8363]); (0x2f99b, 0x2f99b, Mapped, Some [0x83ad]);
   (0x2f99c, 0x2f99c, Mapped, Some [0x8323]); (0x2f99d, 0x2f99d, Mapped, Some [0x83bd]); (0x2f99e, 0x2f99e, Mapped, Some [0x83e7]);
   (0x2f99f, 0x2f99f, Mapped, Some [0x8457]); (0x2f9a0, 0x2f9a0, Mapped, Some [0x8353]); (0x2f9a1, 0x2f9a1, Mapped, Some [0x83ca]);
   (0x2f9a2, 0x2f9a2, Mapped, Some [0x83cc]); (0x2f9a3, 0x2f9a3, Mapped, Some [0x83dc]); (0x2f9a4, 0x2f9a4, Mapped, Some [0x26c36]);
   (0x2f9a5, 0x2f9a5, Mapped, Some [0x26d6b]); (0x2f9a6, 0x2f9a6, Mapped, Some [0x26cd5]); (0x2f9a7, 0x2f9a7, Mapped, Some [0x452b]);
   (0x2f9a8, 0x2f9a8, Mapped, Some [0x84f1]); (0x2f9a9, 0x2f9a9, Mapped, Some [0x84f3]); (0x2f9aa, 0x2f9aa, Mapped, Some [0x8516]);
   (0x2f9ab, 0x2f9ab, Mapped, Some [0x273ca]); (0x2f9ac, 0x2f9ac, Mapped, Some [0x8564]); (0x2f9ad, 0x2f9ad, Mapped, Some [0x26f2c]);
   (0x2f9ae, 0x2f9ae, Mapped, Some [0x455d]); (0x2f9af, 0x2f9af, Mapped, Some [0x4561]); (0x2f9b0, 0x2f9b0, Mapped, Some [0x26fb1]);
   (0x2f9b1, 0x2f9b1, Mapped, Some [0x270d2]); (0x2f9b2, 0x2f9b2, Mapped, Some [0x456b]); (0x2f9b3, 0x2f9b3, Mapped, Some [0x8650]);
   (0x2f9b4, 0x2f9b4, Mapped, Some [0x865c]); (0x2f9b5, 0x2f9b5, Mapped, Some [0x8667]); (0x2f9b6, 0x2f9b6, Mapped, Some [0x8669]);
   (0x2f9b7, 0x2f9b7, Mapped, Some [0x86a9]); (0x2f9b8, 0x2f9b8, Mapped, Some [0x8688]); (0x2f9b9, 0x2f9b9, Mapped, Some [0x870e]);
   (0x2f9ba, 0x2f9ba, Mapped, Some [0x86e2]); (0x2f9bb, 0x2f9bb, Mapped, Some [0x8779]); (0x2f9bc, 0x2f9bc, Mapped, Some [0x8728]);
   (0x2f9bd, 0x2f9bd, Mapped, Some [0x876b]); (0x2f9be, 0x2f9be, Mapped, Some [0x8786]); (0x2f9bf, 0x2f9bf, Disallowed, None);
   (0x2f9c0, 0x2f9c0, Mapped, Some [0x87e1]); (0x2f9c1, 0x2f9c1, Mapped, Some [0x8801]); (0x2f9c2, 0x2f9c2, Mapped, Some [0x45f9]);
   (0x2f9c3, 0x2f9c3, Mapped, Some [0x8860]); (0x2f9c4, 0x2f9c4, Mapped, Some [0x8863]); (0x2f9c5, 0x2f9c5, Mapped, Some [0x27667]);
   (0x2f9c6, 0x2f9c6, Mapped, Some [0x88d7]); (0x2f9c7, 0x2f9c7, Mapped, Some [0x88de]); (0x2f9c8, 0x2f9c8, Mapped, Some [0x4635]);
   (0x2f9c9, 0x2f9c9, Mapped, Some [0x88fa]); (0x2f9ca, 0x2f9ca, Mapped, Some [0x34bb]); (0x2f9cb, 0x2f9cb, Mapped, Some [0x278ae]);
   (0x2f9cc, 0x2f9cc, Mapped, Some [0x27966]); (0x2f9cd, 0x2f9cd, Mapped, Some [0x46be]); (0x2f9ce, 0x2f9ce, Mapped, Some [0x46c7]);
   (0x2f9cf, 0x2f9cf, Mapped, Some [0x8aa0]); (0x2f9d0, 0x2f9d0, Mapped, Some [0x8aed]); (0x2f9d1, 0x2f9d1, Mapped, Some [0x8b8a]);
   (0x2f9d2, 0x2f9d2, Mapped, Some [0x8c55]); (0x2f9d3, 0x2f9d3, Mapped, Some [0x27ca8]); (0x2f9d4, 0x2f9d4, Mapped, Some [0x8cab]);
   (0x2f9d5, 0x2f9d5, Mapped, Some [0x8cc1]); (0x2f9d6, 0x2f9d6, Mapped, Some [0x8d1b]); (0x2f9d7, 0x2f9d7, Mapped, Some [0x8d77]);
   (0x2f9d8, 0x2f9d8, Mapped, Some [0x27f2f]); (0x2f9d9, 0x2f9d9, Mapped, Some [0x20804]); (0x2f9da, 0x2f9da, Mapped, Some [0x8dcb]);
   (0x2f9db, 0x2f9db, Mapped, Some [0x8dbc]); (0x2f9dc, 0x2f9dc, Mapped, Some [0x8df0]); (0x2f9dd, 0x2f9dd, Mapped, Some [0x208de]);
   (0x2f9de, 0x2f9de, Mapped, Some [0x8ed4]); (0x2f9df, 0x2f9df, Mapped, Some [0x8f38]); (0x2f9e0, 0x2f9e0, Mapped, Some [0x285d2]);
   (0x2f9e1, 0x2f9e1, Mapped, Some [0x285ed]); (0x2f9e2, 0x2f9e2, Mapped, Some [0x9094]); (0x2f9e3, 0x2f9e3, Mapped, Some [0x90f1]);
   (0x2f9e4, 0x2f9e4, Mapped, Some [0x9111]); (0x2f9e5, 0x2f9e5, Mapped, Some [0x2872e]); (0x2f9e6, 0x2f9e6, Mapped, Some [0x911b]);
   (0x2f9e7, 0x2f9e7, Mapped, Some [0x9238]); (0x2f9e8, 0x2f9e8, Mapped, Some [0x92d7]); (0x2f9e9, 0x2f9e9, Mapped, Some [0x92d8]);
   (0x2f9ea, 0x2f9ea, Mapped, Some [0x927c]); (0x2f9eb, 0x2f9eb, Mapped, Some [0x93f9]); (0x2f9ec, 0x2f9ec, Mapped, Some [0x9415]);
   (0x2f9ed, 0x2f9ed, Mapped, Some [0x28bfa]); (0x2f9ee, 0x2f9ee, Mapped, Some [0x958b]); (0x2f9ef, 0x2f9ef, Mapped, Some [0x4995]);
   (0x2f9f0, 0x2f9f0, Mapped, Some [0x95b7]); (0x2f9f1, 0x2f9f1, Mapped, Some [0x28d77]); (0x2f9f2, 0x2f9f2, Mapped, Some [0x49e6]);
   (0x2f9f3, 0x2f9f3, Mapped, Some [0x96c3]); (0x2f9f4, 0x2f9f4, Mapped, Some [0x5db2]); (0x2f9f5, 0x2f9f5, Mapped, Some [0x9723]);
   (0x2f9f6, 0x2f9f6, Mapped, Some [0x29145]); (0x2f9f7, 0x2f9f7, Mapped, Some [0x2921a]); (0x2f9f8, 0x2f9f8, Mapped, Some [0x4a6e]);
   (0x2f9f9, 0x2f9f9, Mapped, Some [0x4a76]); (0x2f9fa, 0x2f9fa, Mapped, Some [0x97e0]); (0x2f9fb, 0x2f9fb, Mapped, Some [0x2940a]);
   (0x2f9fc, 0x2f9fc, Mapped, Some [0x4ab2]); (0x2f9fd, 0x2f9fd, Mapped, Some [0x29496]); (0x2f9fe, 0x2f9ff, Mapped, Some [0x980b]);
   (0x2fa00, 0x2fa00, Mapped, Some [0x9829]); (0x2fa01, 0x2fa01, Mapped, Some [0x295b6]); (0x2fa02, 0x2fa02, Mapped, Some [0x98e2]);
   (0x2fa03, 0x2fa03, Mapped, Some [0x4b33]); (0x2fa04, 0x2fa04, Mapped, Some [0x9929]); (0x2fa05, 0x2fa05, Mapped, Some [0x99a7]);
   (0x2fa06, 0x2fa06, Mapped, Some [0x99c2]); (0x2fa07, 0x2fa07, Mapped, Some [0x99fe]); (0x2fa08, 0x2fa08, Mapped, Some [0x4bce]);
   (0x2fa09, 0x2fa09, Mapped, Some [0x29b30]); (0x2fa0a, 0x2fa0a, Mapped, Some [0x9b12]); (0x2fa0b, 0x2fa0b, Mapped, Some [0x9c40]);
   (0x2fa0c, 0x2fa0c, Mapped, Some [0x9cfd]); (0x2fa0d, 0x2fa0d, Mapped, Some [0x4cce]); (0x2fa0e, 0x2fa0e, Mapped, Some [0x4ced]);
   (0x2fa0f, 0x2fa0f, Mapped, Some [0x9d67]); (0x2fa10, 0x2fa10, Mapped, Some [0x2a0ce]); (0x2fa11, 0x2fa11, Mapped, Some [0x4cf8]);
   (0x2fa12, 0x2fa12, Mapped, Some [0x2a105]); (0x2fa13, 0x2fa13, Mapped, Some [0x2a20e]); (0x2fa14, 0x2fa14, Mapped, Some [0x2a291]);
   (0x2fa15, 0x2fa15, Mapped, Some [0x9ebb]); (0x2fa16, 0x2fa16, Mapped, Some [0x4d56]); (0x2fa17, 0x2fa17, Mapped, Some [0x9ef9]);
   (0x2fa18, 0x2fa18, Mapped, Some [0x9efe]); (0x2fa19, 0x2fa19, Mapped, Some [0x9f05]); (0x2fa1a, 0x2fa1a, Mapped, Some [0x9f0f]);
   (0x2fa1b, 0x2fa1b, Mapped, Some [0x9f16]); (0x2fa1c, 0x2fa1c, Mapped, Some [0x9f3b]); (0x2fa1d, 0x2fa1d, Mapped, Some [0x2a600]);
   (0x2fa1e, 0x2fffd, Disallowed, None); (0x2fffe, 0x2ffff, Disallowed, None); (0x30000, 0x3134a, Valid, None);
   (0x3134b, 0x3fffd, Disallowed, None); (0x3fffe, 0x3ffff, Disallowed, None); (0x40000, 0x4fffd, Disallowed, None);
   (0x4fffe, 0x4ffff, Disallowed, None); (0x50000, 0x5fffd, Disallowed, None); (0x5fffe, 0x5ffff, Disallowed, None);
   (0x60000, 0x6fffd, Disallowed, None); (0x6fffe, 0x6ffff, Disallowed, None); (0x70000, 0x7fffd, Disallowed, None);
   (0x7fffe, 0x7ffff, Disallowed, None); (0x80000, 0x8fffd, Disallowed, None); (0x8fffe, 0x8ffff, Disallowed, None);
   (0x90000, 0x9fffd, Disallowed, None); (0x9fffe, 0x9ffff, Disallowed, None); (0xa0000, 0xafffd, Disallowed, None);
   (0xafffe, 0xaffff, Disallowed, None); (0xb0000, 0xbfffd, Disallowed, None); (0xbfffe, 0xbffff, Disallowed, None);
   (0xc0000, 0xcfffd, Disallowed, None); (0xcfffe, 0xcffff, Disallowed, None); (0xd0000, 0xdfffd, Disallowed, None);
   (0xdfffe, 0xdffff, Disallowed, None); (0xe0000, 0xe0000, Disallowed, None); (0xe0001, 0xe0001, Disallowed, None);
   (0xe0002, 0xe001f, Disallowed, None); (0xe0020, 0xe007f, Disallowed, None); (0xe0080, 0xe00ff, Disallowed, None);
   (0xe0100, 0xe01ef, Ignored, None); (0xe01f0, 0xefffd, Disallowed, None); (0xefffe, 0xeffff, Disallowed, None);
   (0xf0000, 0xffffd, Disallowed, None); (0xffffe, 0xfffff, Disallowed, None); (0x100000, 0x10fffd, Disallowed, None);
   (0x10fffe, 0x10ffff, Disallowed, None)].
