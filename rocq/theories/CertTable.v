(** For every binary exponent q = -1074..971: neighbouring fractions p1/q1 <= 2^q/10^k < p2/q2 with q1 + q2 >= 2^54,
    where k = floor(log10(2^q)). Computed by a script; checked in CertCheck.v. *)
From Coq Require Import ZArith List.
Import ListNotations.
Open Scope Z_scope.

Definition cert_table : list (Z * Z * Z * Z) := [
  (0x1337f27c3ff4d4d, 0x3e3cef3606eb66, 0xe9fec2567a7060, 0x2f5c7413d5abbb);
  (0x1337f27c3ff4d4d, 0x1f1e779b0375b3, 0x1d3fd84acf4e0c0, 0x2f5c7413d5abbb);
  (0x1d668ef89b8b92, 0xee07b22313fab, 0x65b13ef7be7c4f, 0x3374f817b88ed2);
  (0x3acd1df1371724, 0xee07b22313fab, 0xdb4b7ada2caa97, 0x377b72503ec6bf);
  (0x1161898cb63c1bb, 0x232df6b9380335, 0x1b696f5b459552e, 0x377b72503ec6bf);
  (0x4f23c422c39667, 0x320e71db6942e0, 0x28ad4c6318fe86, 0x19ba7c0bdc4769);
  (0x4f23c422c39667, 0x190738edb4a170, 0xa07e5ce8f59373, 0x32c1b4f990e8d9);
  (0x4f23c422c39667, 0xc839c76da50b8, 0x190207df4aebd4d, 0x3f4551706b3991);
  (0x4f23c422c39667, 0x3e920e52439398, 0x208aa3827a6538, 0x19ba7c0bdc4769);
  (0x4f23c422c39667, 0x1f49072921c9cc, 0x90390b27b860d7, 0x39038334fe1135);
  (0x4f23c422c39667, 0xfa4839490e4e6, 0x12072164f70c1ae, 0x39038334fe1135);
  (0x25474d4d075a8c, 0x24d79246674c2f, 0x29dc76d5bc3bdb, 0x295effa06d2c4f);
  (0x4f23c422c39667, 0x271b48f36a3c3f, 0x53b8edab7877b6, 0x295effa06d2c4f);
  (0x9e478845872cce, 0x271b48f36a3c3f, 0xa2dcb1ce3c0e1d, 0x283d2449ebb447);
  (0x141243a13c33aeb, 0x27ac369eaaf843, 0x145b9639c781c3a, 0x283d2449ebb447);
  (0x3d7a8c4b875166, 0x25f96d9ce8c437, 0x420fb5d43c32b5, 0x28ce11f52c704b);
  (0x7f8a421fc3841b, 0x2763bfc90a9a41, 0x841f6ba878656a, 0x28ce11f52c704b);
  (0xff14843f870836, 0x2763bfc90a9a41, 0x103a9adc83be985, 0x2818e8df1b8546);
  (0x304434baae7a75, 0x25444486d7d932, 0x34d95e43635bc4, 0x28ce11f52c704b);
  (0x99f6f1417531fd, 0x3b703438985ce4, 0x69b2bc86c6b788, 0x28ce11f52c704b);
  (0x99f6f1417531fd, 0x1db81a1c4c2e72, 0xd365790d8d6f10, 0x28ce11f52c704b);
  (0x3e12e4c7b4d045, 0x3be8c3c67ad972, 0xb7c818f380c37, 0xb15f7d8e041d9);
  (0x82fdee2305198f, 0x3f36496dde3244, 0x16f9031e70186e, 0xb15f7d8e041d9);
  (0x82fdee2305198f, 0x1f9b24b6ef1922, 0xb0eff45fe54a6b, 0x2ab11c8fcf5afb);
  (0x82fdee2305198f, 0xfcd925b778c91, 0x1e4ddd6e2cfae65, 0x3a7eaeeb46e78c);
  (0x5e3c4f8beb58df, 0x38d7ec17953b23, 0x1260cf4b8ce058, 0xb15f7d8e041d9);
  (0x955ebd6e91f9e7, 0x2d0ce9d11b0057, 0xba205c05abba97, 0x3822e1a9fb4230);
  (0x12abd7add23f3ce, 0x2d0ce9d11b0057, 0xba205c05abba97, 0x1c1170d4fda118);
  (0x524551f0ec0901, 0x3e0862cd385f96, 0x33ed850a5fd8cb, 0x272768addde2f1);
  (0x524551f0ec0901, 0x1f0431669c2fcb, 0x67db0a14bfb196, 0x272768addde2f1);
  (0xa48aa3e1d81202, 0x1f0431669c2fcb, 0xba205c05abba97, 0x2315cd0a3d095e);
  (0x3d7fe9865f4be3, 0x39f6c729978603, 0x298ad0d5197a3c, 0x272768addde2f1);
  (0x670aba5b78c61f, 0x308f17ebbab47a, 0x5315a1aa32f478, 0x272768addde2f1);
  (0x670aba5b78c61f, 0x18478bf5dd5a3d, 0x10d35fdafdeaf0f, 0x3f6ef4a3bb3d2e);
  (0xce1574b6f18c3e, 0x18478bf5dd5a3d, 0x1db4b7266d03b4d, 0x37ff0647baf8d4);
  (0xff746f437daec, 0x967af3ddcd189, 0x5f0f16e15cd8a9, 0x37ff0647baf8d4);
  (0x7efda4c9cc8e81, 0x25673261ba4df3, 0x5f0f16e15cd8a9, 0x1bff8323dd7c6a);
  (0x15d0a6074f5f5ab, 0x3366f3f3a90c28, 0x5f0f16e15cd8a9, 0xdffc191eebe35);
  (0xcc5d25cf97bf0, 0x967af3ddcd189, 0x52494484635cb9, 0x3c97189bcce580);
  (0x6bd4e93e565499, 0x27b33b8bc34449, 0x52494484635cb9, 0x1e4b8c4de672c0);
  (0xd7a9d27caca932, 0x27b33b8bc34449, 0x129f317011005eb, 0x36d901b2b67da9);
  (0x24e4c4af3ca5a5, 0x21f524a2acdc72, 0x3b970499d0012f, 0x36d901b2b67da9);
  (0x24e4c4af3ca5a5, 0x10fa9251566e39, 0x772e0933a0025e, 0x36d901b2b67da9);
  (0x9c12cde2dca803, 0x23e9ca020675f1, 0xee5c12674004bc, 0x36d901b2b67da9);
  (0x18a6ee04a1cacbf, 0x2d6165da5e79cd, 0x1dcb824ce800978, 0x36d901b2b67da9);
  (0x1d83d08c308484, 0x10fa9251566e39, 0x52494484635cb9, 0x2f560b39b8134c);
  (0x8d50e59cc465c1, 0x28a597ee3277df, 0x52494484635cb9, 0x17ab059cdc09a6);
  (0x16ceb0fbdec283b, 0x347b1abca07cb2, 0x52494484635cb9, 0xbd582ce6e04d3);
  (0x179ca6d68d36d0, 0x10fa9251566e39, 0x52494484635cb9, 0x3b2b8e0826181f);
  (0x991f39080b0129, 0x370da27e14b165, 0x69e5eb5af09389, 0x2613102cbe432c);
  (0x1323e7210160252, 0x370da27e14b165, 0x69e5eb5af09389, 0x130988165f2196);
  (0x4541b82564ac39, 0x3e404c1f50721e, 0x24a433358be75, 0x20ef5c508b35d);
  (0x655164f43f169f, 0x2d88de72e5209a, 0x69e5eb5af09389, 0x2f97d437edd3f7);
  (0x655164f43f169f, 0x16c46f3972904d, 0xd3cbd6b5e12712, 0x2f97d437edd3f7);
  (0x203c005929e6aef, 0x39f290f222c26f, 0x1391d3baa203db1, 0x232e21b8b03222);
  (0x2886f52e7fa2a6, 0x16c46f3972904d, 0x6e7a71c1a21073, 0x3e107c7c342929);
  (0x510dea5cff454c, 0x16c46f3972904d, 0x970166f021b319, 0x2a6a75dad35cbb);
  (0x18a2b26071f82fd, 0x375be1c39586d1, 0xe80f514d20f865, 0x2097728a22f684);
  (0x206bf758661bb8, 0x16c46f3972904d, 0x45f37c93226dcd, 0x311f109371ff13);
  (0x40d7eeb0cc3770, 0x16c46f3972904d, 0xa737629c54c0f5, 0x3ab62f1fe4d7fd);
  (0x169bf2eaeb96745, 0x3f81be661e4472, 0xe80f514d20f865, 0x28bd4f2cabb425);
  (0x5767b7e032ddf, 0x4cb8f46396c75, 0x45988ef775764b, 0x3d17041ac5287a);
  (0x7c3961e3954101, 0x36854e6c81b286, 0x714c6ae78ee543, 0x31b9bf26484611);
  (0x7c3961e3954101, 0x1b42a73640d943, 0xe298d5cf1dca86, 0x31b9bf26484611);
  (0xf872c3c72a8202, 0x1b42a73640d943, 0x15ed237b2b30b87, 0x267e332e448faa);
  (0x31b08d8e3bb39a, 0x1b42a73640d943, 0x665f73eb888985, 0x3829bbd8129003);
  (0x63611b1c776734, 0x1b42a73640d943, 0x98100179c43d1f, 0x29b6318729b4a3);
  (0xc6c23638eece68, 0x1b42a73640d943, 0x1c23352cf2a72bb, 0x3dbf1394f62036);
  (0x27c0713e962948, 0x1b42a73640d943, 0x5c6f579be2ff33, 0x3f63810086fdb3);
  (0x4f80e27d2c5290, 0x1b42a73640d943, 0x842fc8da79287b, 0x2d53141b63eb7b);
  (0x9f01c4fa58a520, 0x1b42a73640d943, 0x172b27051fe202b, 0x3f8d84df133ba2);
  (0xaba64d98c9842, 0x9323a511dc70b, 0x4a23b01066066f, 0x3f8d84df133ba2);
  (0x5f9879c37f36f3, 0x28f8fcc0a764dc, 0x4a23b01066066f, 0x1fc6c26f899dd1);
  (0xf3dfd9e44b43d1, 0x344340cfdd503f, 0x94476020cc0cde, 0x1fc6c26f899dd1);
  (0x188273a051750af, 0x2a05019fb37708, 0x1288ec0419819bc, 0x1fc6c26f899dd1);
  (0x5f9879c37f36f3, 0x33373bf0d13e13, 0x3b4fc00d1e6b8c, 0x1fc6c26f899dd1);
  (0x9ae839d09da27f, 0x297eff302d6df2, 0x769f801a3cd718, 0x1fc6c26f899dd1);
  (0x188273a051750af, 0x34864207a054ca, 0xed3f003479ae30, 0x1fc6c26f899dd1);
  (0x3c0239bba0299f, 0x282ff9195e573b, 0x2f73000a7ebc70, 0x1fc6c26f899dd1);
  (0x6b7539c61ee60f, 0x23fb5dc473fa86, 0x5ee60014fd78e0, 0x1fc6c26f899dd1);
  (0x1294139f019d7cf, 0x31c47151c39b14, 0xbdcc0029faf1c0, 0x1fc6c26f899dd1);
  (0x1a83ef6e79f349, 0x16324a372459f8, 0x366d5ae92aff7d, 0x2d8fd5fcd93e5f);
  (0x875ea540cff243, 0x38a8fb186b6b5b, 0x6cdab5d255fefa, 0x2d8fd5fcd93e5f);
  (0x10ebd4a819fe486, 0x38a8fb186b6b5b, 0xf4395b1325f13d, 0x331c688aa254dd);
  (0x21d7a95033fc90c, 0x38a8fb186b6b5b, 0x202f6a594c5d5c3, 0x35e2b1d186e01c);
  (0x1a83ef6e79f349, 0xddf6e6276b83b, 0x61b08ad47593b2, 0x331c688aa254dd);
  (0x7c347a42ef86fb, 0x207deb768c868c, 0xc36115a8eb2764, 0x331c688aa254dd);
  (0x7c347a42ef86fb, 0x103ef5bb464346, 0x186c22b51d64ec8, 0x331c688aa254dd);
  (0x2e0da4cc2b10d3, 0x1e1e641dbcfb81, 0x4e26d576c47628, 0x331c688aa254dd);
  (0x7c347a42ef86fb, 0x289d66542fa82f, 0x9c4daaed88ec50, 0x331c688aa254dd);
  (0x11882253078734b, 0x2ddce76f68fe86, 0x1389b55db11d8a0, 0x331c688aa254dd);
  (0x381a077018170f, 0x2ddce76f68fe86, 0x201930aa996555, 0x1a3d85881eafb3);
  (0x381a077018170f, 0x16ee73b7b47f43, 0x784c68c54ae1b9, 0x312bf93fd32ef6);
  (0x70340ee0302e1e, 0x16ee73b7b47f43, 0xe88077a57b0fd7, 0x2f8470579e16be);
  (0xe0681dc0605c3c, 0x16ee73b7b47f43, 0x1c8e89565db6c13, 0x2eb0abe3838aa2);
  (0x7c06f6411542ba, 0x3f5eae78188d87, 0x19e786105571f, 0xd3c4741a8c1c);
  (0xf9ac64e32fdc93, 0x3fc890b225d395, 0x19e786105571f, 0x69e23a0d460e);
  (0x1f4f74227651045, 0x3ffd81cf2c769c, 0x19e786105571f, 0x34f11d06a307);
  (0x638ba9e112139b, 0x3f939f951f308e, 0x19e786105571f, 0x108b591212f23);
  (0xb1423c1212696b, 0x389ad565ac038f, 0xb47f2cd41d17a9, 0x39a38af6cd32b2);
  (0x16284782424d2d6, 0x389ad565ac038f, 0xb47f2cd41d17a9, 0x1cd1c57b669959);
  (0x44502438cb9ec6, 0x36896a4369a549, 0x256502de707da1, 0x1dda7b0c87c87c);
  (0x88a04871973d8c, 0x36896a4369a549, 0x256502de707da1, 0xeed3d8643e43e);
  (0x136a593c19ef8b9, 0x3e0009068b9768, 0x256502de707da1, 0x7769ec321f21f);
  (0x3fd7b40585552c, 0x3fb5b5f959bf09, 0x77a9a2c7ce5ed, 0x7769ec321f21f);
  (0x7431eb3cef9ea7, 0x39fa06a7a3aef1, 0xef53458f9cbda, 0x7769ec321f21f);
  (0xfad0c25db7c951, 0x3e92cdc1ea9904, 0x1dea68b1f397b4, 0x7769ec321f21f);
  (0x1ea2407ed5486f1, 0x3d23e1ed7d14fe, 0x3bd4d163e72f68, 0x7769ec321f21f);
  (0x3229c07924c1dd, 0x1f4966e0f54c82, 0x3bd4d163e72f68, 0x255119cfa9ba9b);
  (0x3229c07924c1dd, 0xfa4b3707aa641, 0xa9d36340f320ad, 0x34f5cd402460dc);
  (0x10e26e4333ca467, 0x2a1f9a108cd6af, 0xa9d36340f320ad, 0x1a7ae6a012306e);
  (0x62a52ed86615b, 0x4ce8040e31c14, 0x51d48829b65fa9, 0x3fcc006fbbeb09);
  (0x62a52ed86615b, 0x2674020718e0a, 0xa3a910536cbf52, 0x3fcc006fbbeb09);
  (0x62a52ed86615b, 0x133a01038c705, 0x1475220a6d97ea4, 0x3fcc006fbbeb09);
  (0x62a52ed86615b, 0x60220511be319, 0x403b2925109f75, 0x3e98605f832404);
  (0x4c8fcf001d622b, 0x254e5080dd751b, 0x403b2925109f75, 0x1f4c302fc19202);
  (0xd95ac7254b63cb, 0x34f46898be3e1c, 0x403b2925109f75, 0xfa61817e0c901);
  (0xd95ac7254b63cb, 0x1a7a344c5f1f0e, 0x159d1196f6ca2b5, 0x2a204c643fe80f);
  (0x2b788e3aa8ad8f, 0x1a7a344c5f1f0e, 0x54fdc40f78915b, 0x33c4442b04cdf7);
  (0x2b788e3aa8ad8f, 0xd3d1a262f8f87, 0xa9fb881ef122b6, 0x33c4442b04cdf7);
  (0x56f11c75515b1e, 0xd3d1a262f8f87, 0x183564f443c8681, 0x3afae374f94dcd);
  (0x2c404b303297dd, 0x21b0d396539ee4, 0x2ab0d1451ec341, 0x2080af289a2ebf);
  (0x2c404b303297dd, 0x10d869cb29cf72, 0x81a1edba701e5f, 0x315918f3c3fe31);
  (0x12f8426a512d49b, 0x39c54dd958e5ea, 0x10343db74e03cbe, 0x315918f3c3fe31);
  (0x2c404b303297dd, 0x2a1d087be8869d, 0x33da5f17600c26, 0x315918f3c3fe31);
  (0x601aaa4792a403, 0x2dbb10b7d64267, 0x67b4be2ec0184c, 0x315918f3c3fe31);
  (0xc7cf687652bc4f, 0x2f8a14d5cd204c, 0xcf697c5d803098, 0x315918f3c3fe31);
  (0xc7cf687652bc4f, 0x17c50a6ae69026, 0x19ed2f8bb006130, 0x315918f3c3fe31);
  (0x698c0b43b8b3f9, 0x3ec7b4759bf203, 0x30a6e5c7894ea, 0x1cf041df6dde5);
  (0xcde4452f43e623, 0x3d3b9e29374644, 0xd3f921e8350ff7, 0x3f0aa2472e2429);
  (0xcde4452f43e623, 0x1e9dcf149ba322, 0x1a7f243d06a1fee, 0x3f0aa2472e2429);
  (0x24502a0f1972f7, 0x1affc6d8ade758, 0x54ca0d90153996, 0x3f0aa2472e2429);
  (0x24502a0f1972f7, 0xd7fe36c56f3ac, 0xa9941b202a732c, 0x3f0aa2472e2429);
  (0x24502a0f1972f7, 0x6bff1b62b79d6, 0x15328364054e658, 0x3f0aa2472e2429);
  (0x24502a0f1972f7, 0x21bfb88ed9612e, 0x3c919c09d8b0ad, 0x384ab09102aa53);
  (0x24502a0f1972f7, 0x10dfdc476cb097, 0x79233813b1615a, 0x384ab09102aa53);
  (0xe613b640fdba3f, 0x357522b3a45e0c, 0x9d736222cad451, 0x2495466c37ad75);
  (0x220fa7a869362e1, 0x3f4fd7c609dc7b, 0x13ae6c44595a8a2, 0x2495466c37ad75);
  (0x6cfee54e1d7a2d, 0x3f4fd7c609dc7b, 0x60e8f9a95ab448, 0x384ab09102aa53);
  (0xd9fdca9c3af45a, 0x3f4fd7c609dc7b, 0xcde7def7782e75, 0x3bcd442b864367);
  (0x1a7e5a993b322cf, 0x3d8e8df8c80ff1, 0x19bcfbdeef05cea, 0x3bcd442b864367);
  (0x5732510b4ac824, 0x3f4fd7c609dc7b, 0x4b1c656688023f, 0x368966c3c0ddc9);
  (0xae64a216959048, 0x3f4fd7c609dc7b, 0xa24eb671d2ca63, 0x3aec9f44e55d22);
  (0x15cc9442d2b2090, 0x3f4fd7c609dc7b, 0xa24eb671d2ca63, 0x1d764fa272ae91);
  (0x254bb5f244de09, 0x21d98823972dea, 0x326b949b043048, 0x2dc2f5c177df17);
  (0x254bb5f244de09, 0x10ecc411cb96f5, 0x8a22df284d3e99, 0x3eafb9d343760c);
  (0x4a976be489bc12, 0x10ecc411cb96f5, 0xd4ba4b0cd6faab, 0x3044a0fb6d51fb);
  (0x952ed7c9137824, 0x10ecc411cb96f5, 0x1b4808eba742ee1, 0x31857698680b6d);
  (0x200bc3485ebd23, 0x122d99aec65067, 0x5517513855fdde, 0x3044a0fb6d51fb);
  (0x75231480b4bb01, 0x21391d5519d131, 0xaa2ea270abfbbc, 0x3044a0fb6d51fb);
  (0xea462901697602, 0x21391d5519d131, 0x11f51b6f160b6bd, 0x28bedf28439196);
  (0x5319c0d0925575, 0x3aec78d709e1fd, 0x4412a76044cb18, 0x3044a0fb6d51fb);
  (0xa63381a124aaea, 0x3aec78d709e1fd, 0x972c6830d7208d, 0x35988ce93b99fc);
  (0x14c6703424955d4, 0x3aec78d709e1fd, 0x972c6830d7208d, 0x1acc46749dccfe);
  (0x3c4a47b72c81a3, 0x356fe219a53503, 0x1e3c14d6916ce9, 0x1acc46749dccfe);
  (0x78948f6e590346, 0x356fe219a53503, 0x1e3c14d6916ce9, 0xd66233a4ee67f);
  (0x10fc0f79f3023d3, 0x3c37491e97dabf, 0x3c7829ad22d9d2, 0xd66233a4ee67f);
  (0x23e19c800de64ed, 0x3f9afca1112d9d, 0x78f0535a45b3a4, 0xd66233a4ee67f);
  (0x72888b436f20b1, 0x3f7251d17ac8a4, 0x183010aba78a54, 0xd66233a4ee67f);
  (0xd348cdf20d4a01, 0x3a856f5d5b3150, 0x306021574f14a8, 0xd66233a4ee67f);
  (0x194c9534f499ca1, 0x380efe234b65a6, 0x60c042ae9e2950, 0xd66233a4ee67f);
  (0x3d9b69b9bbe3dd, 0x2aa8dae8fc7f27, 0x2324d8f4e24573, 0x1855d53a8e0154);
  (0x9e5bac685a0d2d, 0x36d3c586437fd1, 0x2324d8f4e24573, 0xc2aea9d4700aa);
  (0x15fdc31c5965fcd, 0x3ce93ad4e70026, 0x2324d8f4e24573, 0x615754ea38055);
  (0x38507ff8c390fb, 0x30be50379fff7c, 0x2324d8f4e24573, 0x1e6b4a893181a9);
  (0x38507ff8c390fb, 0x185f281bcfffbe, 0x7e9a31e2881be1, 0x36ca72a5018167);
  (0x38507ff8c390fb, 0xc2f940de7ffdf, 0xfd3463c51037c2, 0x36ca72a5018167);
  (0x70a0fff18721f6, 0xc2f940de7ffdf, 0x216c6e3a0e20ca9, 0x39dc2b7544c061);
  (0x70a0fff18721f6, 0x3cede44587ff5b, 0x2760c728dc215b, 0x154d6f4b8cc0c4);
  (0xe141ffe30e43ec, 0x3cede44587ff5b, 0x2760c728dc215b, 0xaa6b7a5c66062);
  (0x1c283ffc61c87d8, 0x3cede44587ff5b, 0x2760c728dc215b, 0x5535bd2e33031);
  (0x523a3e85d9ae19, 0x379a8872a4cf2a, 0x2760c728dc215b, 0x1aa0cb1e6ff0f5);
  (0x523a3e85d9ae19, 0x1bcd4439526795, 0xa0fbccd791f0cf, 0x366e0f57c2588a);
  (0x1457049e3454d01, 0x37044be53393da, 0xa0fbccd791f0cf, 0x1b3707abe12c45);
  (0xb1bcd739e247, 0x963c8d713b50, 0x4b96116ec238b2, 0x3fe40e65fe5de9);
  (0xb1bcd739e247, 0x4b1e46b89da8, 0x972c22dd847164, 0x3fe40e65fe5de9);
  (0xb1bcd739e247, 0x258f235c4ed4, 0x12e5845bb08e2c8, 0x3fe40e65fe5de9);
  (0xb1bcd739e247, 0x12c791ae276a, 0x25d62484d4ba7d7, 0x3ff6d5f7ac8553);
  (0xb1bcd739e247, 0x5de5d866c512, 0x78f01be469f450, 0x3fe40e65fe5de9);
  (0xb1bcd739e247, 0x2ef2ec336289, 0xf1e037c8d3e8a0, 0x3fe40e65fe5de9);
  (0x16379ae73c48e, 0x2ef2ec336289, 0x1e42ea932bd636b, 0x3ff29d3405d957);
  (0x16379ae73c48e, 0xeabe9d00ecad, 0x6000d8d4ad378d, 0x3f65c46f6bb1bc);
  (0x6855b2eb63d2e1, 0x22731e0eb89ee5, 0x658ebf8e7c49c5, 0x21885f71b7b238);
  (0x1363a256543ef87, 0x33374dc7947801, 0x658ebf8e7c49c5, 0x10c42fb8dbd91c);
  (0x427d2675b33e7b, 0x36e2483b982ab5, 0x144fbfe94c0ec1, 0x10c42fb8dbd91c);
  (0x994a0cd4b28bb7, 0x3f446018061743, 0x144fbfe94c0ec1, 0x86217dc6dec8e);
  (0x1329419a965176e, 0x3f446018061743, 0x144fbfe94c0ec1, 0x4310bee36f647);
  (0x263405854d9f4bd, 0x3f1209869f42b6, 0x289f7fd2981d82, 0x4310bee36f647);
  (0x72202b4d405e3f, 0x3ae0fd98684c6f, 0x289f7fd2981d82, 0x14f53ba712cf63);
  (0xebfeaac508b6c5, 0x3ce05846d05d4c, 0x513effa5303b04, 0x14f53ba712cf63);
  (0xebfeaac508b6c5, 0x1e702c23682ea6, 0x18e7caa0f692ccd, 0x336567ca7afe09);
  (0xeb3557eee7359, 0x97af07c555f43, 0x58fd53cfb8354b, 0x396377d5b330a0);
  (0x1d66aafddce6b2, 0x97af07c555f43, 0xb13154c94ee961, 0x39228d5fd9b619);
  (0x1096555c2e59d77, 0x2ac9af6a6ce9f1, 0xce97ffc72bd013, 0x214ebeee178aae);
  (0x3514445a2dec4b, 0x2ac9af6a6ce9f1, 0x2f5b32b8a20b32, 0x262cac672ef793);
  (0x6a2888b45bd896, 0x2ac9af6a6ce9f1, 0x646f7712cff77d, 0x287b2de8cdf0c2);
  (0xd4511168b7b12c, 0x2ac9af6a6ce9f1, 0x138c0887b87a8a9, 0x3f07465ed3e252);
  (0x1a8a222d16f6258, 0x2ac9af6a6ce9f1, 0x138c0887b87a8a9, 0x1f83a32f69f129);
  (0x6fe19a55e7b9af, 0x385e3d270edbe8, 0x3e8ce818b4bb55, 0x1f83a32f69f129);
  (0xecfb6a87513059, 0x3bb2c1c2f15f1d, 0x7d19d0316976aa, 0x1f83a32f69f129);
  (0x16a153ab8baa703, 0x2d9b32792da823, 0xfa33a062d2ed54, 0x1f83a32f69f129);
  (0x3dd7470ef0bd6b, 0x26f2294168a1b9, 0x320a5346f6fc44, 0x1f83a32f69f129);
  (0x6fe19a55e7b9af, 0x233ae638694971, 0x6414a68dedf888, 0x1f83a32f69f129);
  (0xd3f640e3d5b237, 0x215f44b3e99d4d, 0xc8294d1bdbf110, 0x1f83a32f69f129);
  (0x2f1cd4e3f50a81, 0x251687bce8f595, 0x234fe11bfb495a, 0x1bcc60266a98e1);
  (0x526cb5fff053db, 0x207173f1a9c73b, 0x990c7837e6e68f, 0x3c3dd41814601c);
  (0xa4d96bffe0a7b6, 0x207173f1a9c73b, 0x13de5e437c78e45, 0x3e905dfdb3f749);
  (0x280cdb118f956f, 0x276911a2888cc2, 0x1c3fe74995d448, 0x1bcc60266a98e1);
  (0x608ca9a4bb3dff, 0x2f80e8f7aedf42, 0x387fce932ba890, 0x1bcc60266a98e1);
  (0x608ca9a4bb3dff, 0x17c0747bd76fa1, 0xd18c46cb128f1f, 0x338cd4a2420882);
  (0xc1195349767bfe, 0x17c0747bd76fa1, 0x192a59a14890b1d, 0x3186deccf873e2);
  (0x64fbffa6d94412, 0x3e1b631728eca5, 0x34a30b3859d6d, 0x205f5d54994a0);
  (0xcd423001382591, 0x3f1e5e01cdb6f5, 0x34a30b3859d6d, 0x102faeaa4ca50);
  (0x19dce90b5f5e88f, 0x3f9fdb77201c1d, 0x34a30b3859d6d, 0x817d75526528);
  (0x50c999524769a8, 0x3e1b631728eca5, 0x34a30b3859d6d, 0x287734a9bf9c8);
  (0xa4dd63581470bd, 0x3f5f1cbc76e989, 0x34a30b3859d6d, 0x143b9a54dfce4);
  (0x149bac6b028e17a, 0x3f5f1cbc76e989, 0x34a30b3859d6d, 0xa1dcd2a6fe72);
  (0x40a1477505ee20, 0x3e1b631728eca5, 0x34a30b3859d6d, 0x329501d42f83a);
  (0x848cbf9d9179ad, 0x3fb00b25ca68c2, 0x34a30b3859d6d, 0x194a80ea17c1d);
  (0xf4673775506227, 0x3ab72e8b9e724e, 0xfafb98dc5b9d01, 0x3c4bd69a3fee6b);
  (0xf4673775506227, 0x1d5b9745cf3927, 0x1f5f731b8b73a02, 0x3c4bd69a3fee6b);
  (0x5f21226c1ba952, 0x3922867cfcf631, 0x3624f29d190f83, 0x2084e763123161);
  (0xbe4244d83752a4, 0x3922867cfcf631, 0x9546150934b8d5, 0x2cd3b6f00793c9);
  (0x1538859e16c0b79, 0x32fb1eb68244fd, 0x12a8c2a126971aa, 0x2cd3b6f00793c9);
  (0x544cf1e649d96b, 0x3f49ee4377a765, 0x2b50c217473f9c, 0x2084e763123161);
  (0x7f9db3fd911907, 0x2fe76ad344ec63, 0x56a1842e8e7f38, 0x2084e763123161);
  (0xff3b67fb22320e, 0x2fe76ad344ec63, 0xd63f382c1f983f, 0x2836291b2b8ee2);
  (0x28fc2fcf0299cf, 0x267648987ed385, 0x22a701ac38ffb0, 0x2084e763123161);
  (0x4ba3317b3b997f, 0x237d97fdc88273, 0x454e035871ff60, 0x2084e763123161);
  (0x974662f67732fe, 0x237d97fdc88273, 0x90f134d3ad98df, 0x22013fb06d59ea);
  (0x1bf7dfac09bfedb, 0x347e37d5ff2f68, 0x90f134d3ad98df, 0x11009fd836acf5);
  (0x1f85836b735c39, 0x127cf82591d57e, 0x51e62dfcc6e06d, 0x30092eededb5cd);
  (0x1f85836b735c39, 0x93e7c12c8eabf, 0xc351df65011d13, 0x3947ab00b6a08c);
  (0x14167ed12ce8df7, 0x2f20cda5ed25c4, 0x1025ce63be7d585, 0x25e25193243b05);
  (0x4ce3ca61f10e15, 0x385f49b8b61083, 0xdd8c38b0a55a3, 0xa26dd5ac97ac8);
  (0x99c794c3e21c2a, 0x385f49b8b61083, 0xa7a0584eec71cd, 0x3d72b8661acde7);
  (0x14167ed12ce8df7, 0x3ae9010f686f35, 0x14f40b09dd8e39a, 0x3d72b8661acde7);
  (0x37f9207d231c36, 0x334bdb0b51531f, 0x45d1e4082d71d9, 0x3ffc6fbccd2c99);
  (0x7dcb0485508e0f, 0x39a425640f3fdc, 0x8ba3c8105ae3b2, 0x3ffc6fbccd2c99);
  (0x7dcb0485508e0f, 0x1cd212b2079fee, 0x117479020b5c764, 0x3ffc6fbccd2c99);
  (0x7dcb0485508e0f, 0xe69095903cff7, 0x22e8f20416b8ec8, 0x3ffc6fbccd2c99);
  (0x273d655fb18dea, 0x1679c85949b331, 0x568d9f259f0025, 0x31936663c95ca2);
  (0xa50869e5021bf9, 0x2f437b8b2e6182, 0x568d9f259f0025, 0x18c9b331e4ae51);
  (0x15223a830401c43, 0x306b70f77bdf12, 0xad1b3e4b3e004a, 0x18c9b331e4ae51);
  (0x2101aec766d265, 0x17a1bdc59730c1, 0x4a1631f509891b, 0x350b46a8b1d552);
  (0x42035d8ecda4ca, 0x17a1bdc59730c1, 0x8c198f83d72de5, 0x32276119f01b6a);
  (0x8406bb1d9b4994, 0x17a1bdc59730c1, 0x110204aa1727779, 0x30b56e528f3e76);
  (0x1a67bf05ebdb84, 0x17a1bdc59730c1, 0x3ce25272139b59, 0x367d397012b246);
  (0x34cf7e0bd7b708, 0x17a1bdc59730c1, 0x71b1d07deb5261, 0x32e05a7da089e4);
  (0x699efc17af6e10, 0x17a1bdc59730c1, 0xdb50cc959ac071, 0x3111eb046775b3);
  (0x144efc8ad4a2e81, 0x2459d464ff533a, 0x1b6a1992b3580e2, 0x3111eb046775b3);
  (0x40fcc1bc42094d, 0x2459d464ff533a, 0x71b1d07deb5261, 0x3f98711d08ac5d);
  (0x40fcc1bc42094d, 0x122cea327fa99d, 0xe363a0fbd6a4c2, 0x3f98711d08ac5d);
  (0x81f9837884129a, 0x122cea327fa99d, 0x1a659e6309cc0a9, 0x3b0f97da43d49a);
  (0x4103909248a138, 0x2d750c11f54d51, 0x207af9731db8b1, 0x16b5c375448160);
  (0xa2821a97aefb21, 0x38cfedcc978e01, 0x207af9731db8b1, 0xb5ae1baa240b0);
  (0x1657f2ea27baef3, 0x3e7d5ea9e8ae59, 0x207af9731db8b1, 0x5ad70dd512058);
  (0x2d83db5e00f5a3, 0x27c79b34a42cf9, 0x207af9731db8b1, 0x1c63345295a1b8);
  (0x7b82b02f1fa3f7, 0x35f9355deefdd5, 0x207af9731db8b1, 0xe319a294ad0dc);
  (0x1178059d15d009f, 0x3d120272946643, 0x207af9731db8b1, 0x718cd14a5686e);
  (0x22f00b3a2ba013e, 0x3d120272946643, 0x207af9731db8b1, 0x38c668a52b437);
  (0x5c4ff4a846916f, 0x326cced39c499e, 0x207af9731db8b1, 0x11be00b39d8513);
  (0x9d45e78e8202d1, 0x2af4681d6ba9e2, 0xde3bda74bd7433, 0x3cb268d1092ef5);
  (0x9d45e78e8202d1, 0x157a340eb5d4f1, 0x1bc77b4e97ae866, 0x3cb268d1092ef5);
  (0x1f746182e6cd5d, 0x157a340eb5d4f1, 0x430322c6a9480a, 0x2dc19b64a7ef7d);
  (0x3ee8c305cd9aba, 0x157a340eb5d4f1, 0xa160474f5db021, 0x37181bc864b728);
  (0x7dd1860b9b3574, 0x157a340eb5d4f1, 0x11f31cd5af8e595, 0x310641f2e83085);
  (0x2b37422a4a633f, 0x24e28e47ef233f, 0x276301b7066ef6, 0x219de7b9aee237);
  (0x566e845494c67e, 0x24e28e47ef233f, 0x529a43e150d235, 0x23403b00cf02bb);
  (0xa908c835e598b3, 0x241164a45f12fd, 0xa53487c2a1a46a, 0x23403b00cf02bb);
  (0x15211906bcb3166, 0x241164a45f12fd, 0x14e3d4ff8873d1d, 0x23a8cfd2970adc);
  (0x439d1ce25bd6ae, 0x241164a45f12fd, 0x3fc8dc6f17e265, 0x22067c8b76ea58);
  (0x873a39c4b7ad5c, 0x241164a45f12fd, 0xc7031633cf8fc1, 0x3514a2ea1a8829);
  (0x10e7473896f5ab8, 0x241164a45f12fd, 0x14e3d4ff8873d1d, 0x2c9303c73ccd93);
  (0x1c93beef0cb796, 0x130e265ea39dd1, 0x5c5c9b5e2499fb, 0x3d96420cf842bf);
  (0x78f05a4d315191, 0x28523435cdf048, 0xb8b936bc4933f6, 0x3d96420cf842bf);
  (0x78f05a4d315191, 0x14291a1ae6f824, 0x171726d789267ec, 0x3d96420cf842bf);
  (0x473cbcde1de6b2, 0x3b605a94718e19, 0x31b39d6f136adf, 0x296d27f2114a9b);
  (0x78f05a4d315191, 0x3266c143416c5a, 0x63673ade26d5be, 0x296d27f2114a9b);
  (0x78f05a4d315191, 0x193360a1a0b62d, 0xc6ce75bc4dab7c, 0x296d27f2114a9b);
  (0xf1e0b49a62a322, 0x193360a1a0b62d, 0x2319f84a3e1a02f, 0x3a83a4eb79b691);
  (0x20cd51d574750b, 0x11167cf9686bf6, 0x6eab6d4490cef6, 0x39a6ef4281df09);
  (0x20cd51d574750b, 0x88b3e7cb435fb, 0xdd56da89219dec, 0x39a6ef4281df09);
  (0x1c2f4175f50d139, 0x3abad255b7ac73, 0x1815973b467e723, 0x322f93d9037678);
  (0xd1eed8894fb9e, 0x88b3e7cb435fb, 0x60b109f79a478f, 0x3ef6848594acc6);
  (0x1a3ddb1129f73c, 0x88b3e7cb435fb, 0xaf6a9b2b182d43, 0x391cfdb8e6f854);
  (0x347bb62253ee78, 0x88b3e7cb435fb, 0x1815973b467e723, 0x3ebb78cf445416);
  (0x347bb62253ee78, 0x2ab8386f850de7, 0x2315523bd1a2a7, 0x1c8e7edc737c2a);
  (0x8c0cbe80797f97, 0x38ff77ddbecbfc, 0x2315523bd1a2a7, 0xe473f6e39be15);
  (0x8c0cbe80797f97, 0x1c7fbbeedf65fe, 0xd23762f81cc4e5, 0x2ac6fb5d192413);
  (0x8c0cbe80797f97, 0xe3fddf76fb2ff, 0x2307b8470b30961, 0x3906d95488d712);
  (0x6ffbafea3830ab, 0x38f81666f4c0e6, 0x1c110e96414eec, 0xe473f6e39be15);
  (0xa81dcd16bace83, 0x2ac34aa1b41e88, 0xe03fea433d6c5b, 0x390a8a0feddc9d);
  (0xa81dcd16bace83, 0x1561a550da0f44, 0x1c07fd4867ad8b6, 0x390a8a0feddc9d);
  (0xb2b83bf8ab6f7, 0x71a65e2a0512f, 0x59ed32d9efcdc2, 0x392f7161e0140b);
  (0xa81dcd16bace83, 0x35741d4a21262a, 0x91c6c597a56095, 0x2e59b76780d4fb);
  (0xa81dcd16bace83, 0x1aba0ea5109315, 0x1238d8b2f4ac12a, 0x2e59b76780d4fb);
  (0x455e01cfe13f97, 0x3723a62f91d7d1, 0x18aff2d1b663bb, 0x139fa8c27041e6);
  (0x8abc039fc27f2e, 0x3723a62f91d7d1, 0x18aff2d1b663bb, 0x9cfd4613820f3);
  (0x1378ba75bbf394b, 0x3de93a6c0d5f3b, 0x315fe5a36cc776, 0x9cfd4613820f3);
  (0x346f26be76e391, 0x3419660ad53e48, 0x315fe5a36cc776, 0x310f25e618a4bf);
  (0x346f26be76e391, 0x1a0cb3056a9f24, 0x62bfcb46d98eec, 0x310f25e618a4bf);
  (0x346f26be76e391, 0xd065982b54f92, 0xf9eebd4c2a0169, 0x3e157f68cdf451);
  (0x346f26be76e391, 0x6832cc15aa7c9, 0x1f3dd7a985402d2, 0x3e157f68cdf451);
  (0x346f26be76e391, 0x208fdfc6c546ed, 0x63f91884dd9a2a, 0x3e157f68cdf451);
  (0x68de4d7cedc722, 0x208fdfc6c546ed, 0x98683f43547dbb, 0x2f52af97c99d9f);
  (0xd1bc9af9db8e44, 0x208fdfc6c546ed, 0x101468cc04244dd, 0x27f147af477246);
  (0x4ca0c2ce558efe, 0x3b7bb02abc03c3, 0x981fd27ae2485, 0x76167e8822b59);
  (0xa232a93374d7ab, 0x3ef42baba7c4f2, 0x1303fa4f5c490a, 0x76167e8822b59);
  (0xee429270e5fbd3, 0x2e3ce5a6d8392b, 0x1144a870f9e8de7, 0x359e4d8f5a6484);
  (0x113a26646723e7, 0x10b74604cf8bc7, 0x37421b031fb5fb, 0x359e4d8f5a6484);
  (0x59b667cbedfdc9, 0x2b866ccc7cbe09, 0x37421b031fb5fb, 0x1acf26c7ad3242);
  (0xeaaeea9afbb18d, 0x38ee003053572a, 0x37421b031fb5fb, 0xd679363d69921);
  (0x1c7b756a77a8979, 0x374626dfd6ddd7, 0x6e8436063f6bf6, 0xd679363d69921);
  (0x2eefc8856589e9, 0x1c77001829ab95, 0x3f946d80d9e20d, 0x268ee0db075210);
  (0x9d73fe8ba4f5df, 0x2fbe7085ad549d, 0x3f946d80d9e20d, 0x1347706d83a908);
  (0x13ae7fd1749ebbe, 0x2fbe7085ad549d, 0x17a7c6a9823cdcb, 0x396228bc6f2921);
  (0x3243e9847ccebd, 0x261ab84eeb8019, 0x3f946d80d9e20d, 0x30329911c92694);
  (0x6487d308f99d7a, 0x261ab84eeb8019, 0xa41c4089d37f87, 0x3e3404d7d01363);
  (0x108a41392cd1d01, 0x32275e935dc9be, 0x148388113a6ff0e, 0x3e3404d7d01363);
  (0x1b7f0b503844fb, 0x1a0e120a793674, 0x3f946d80d9e20d, 0x3c3f3f563b7039);
  (0x1b7f0b503844fb, 0xd0709053c9b3a, 0x7f28db01b3c41a, 0x3c3f3f563b7039);
  (0x1b7f0b503844fb, 0x68384829e4d9d, 0xfe51b603678834, 0x3c3f3f563b7039);
  (0x1f5c91bd561f507, 0x3b6f73f6e6155f, 0x1becb0534f16b11, 0x34ebef7447c7c2);
  (0xaff9e201681fe, 0x68384829e4d9d, 0x69d6df5237ad4f, 0x3eaea1743b80c7);
  (0x15ff3c402d03fc, 0x68384829e4d9d, 0xccd36e73023f3d, 0x3ca72505e61da6);
  (0x2bfe78805a07f8, 0x68384829e4d9d, 0x1a8cbc8f4c46715, 0x3ee529100a92e4);
  (0x8cc7e80120198, 0x68384829e4d9d, 0x51a483720628ed, 0x3c709d6a170b89);
  (0x1198fd00240330, 0x68384829e4d9d, 0xa0d4f5f2a83745, 0x3b882300d3e307);
  (0x2331fa00480660, 0x68384829e4d9d, 0x13f35daf3ec53f5, 0x3b13e5cc324ec6);
  (0x2331fa00480660, 0x2091968d178411, 0x23af96fd5c0bb1, 0x2105d3c1b91852);
  (0x6a138afdec1871, 0x3114806df4103a, 0x23af96fd5c0bb1, 0x1082e9e0dc8c29);
  (0x6a138afdec1871, 0x188a4036fa081d, 0xb172b8f8a42fd3, 0x290d2a17d69446);
  (0xd42715fbd830e2, 0x188a4036fa081d, 0x18599cef47c60b5, 0x2d10d542e55240);
  (0x69af0d66a8e0fd, 0x3d1f81ef204a28, 0x237d5831ba6ff7, 0x1486950beb4a23);
  (0xb0a9bdca1dc0eb, 0x331656037b6f37, 0x46fab06374dfee, 0x1486950beb4a23);
  (0xf7a46e2d92a0d9, 0x23ce7587b35cad, 0x18599cef47c60b5, 0x38550a939ea6d0);
  (0x152302ae21c699, 0xf47e07bc8128a, 0x4e8c58bc846c11, 0x38c947c8403b11);
  (0x152302ae21c699, 0x7a3f03de40945, 0x9d18b17908d822, 0x38c947c8403b11);
  (0x2a46055c438d32, 0x7a3f03de40945, 0x15b53c99838d383, 0x3ec65cfaa2473f);
  (0x2a46055c438d32, 0x2633b135742e59, 0x2c19f1e71608c9, 0x27da8c40f62b70);
  (0x80a5fc9f9d232d, 0x3a20f755ef4411, 0x2c19f1e71608c9, 0x13ed46207b15b8);
  (0x1014bf93f3a465a, 0x3a20f755ef4411, 0x2c19f1e71608c9, 0x9f6a3103d8adc);
  (0x22eb1e4658a957d, 0x3f1c48de0e097f, 0x2c19f1e71608c9, 0x4fb51881ec56e);
  (0x5547362341b23a, 0x302a5445b1b935, 0x2c19f1e71608c9, 0x18e897a899db26);
  (0xd6a85e2d996d3d, 0x3c9ea019fea6c8, 0x2c19f1e71608c9, 0xc744bd44ced93);
  (0xd6a85e2d996d3d, 0x1e4f500cff5364, 0x12edc41fbc57ecf, 0x2ac39be14c40f7);
  (0x194a7edfe2abef, 0x11db0438b265d1, 0x5833e3ce2c1192, 0x3e457b2580a3df);
  (0x3294fdbfc557de, 0x11db0438b265d1, 0xa413606dd4155f, 0x39eb43e7cbeaa9);
  (0xd6a85e2d996d3d, 0x25e324103f283d, 0x14826c0dba82abe, 0x39eb43e7cbeaa9);
  (0x3f2a11ef6d9f65, 0x37be2848f18e0e, 0x192a285f508f0e, 0x16353b76671f07);
  (0x3f2a11ef6d9f65, 0x1bdf142478c707, 0x717e62ae0ebd81, 0x32144f9adfe60e);
  (0x7e5423dedb3eca, 0x1bdf142478c707, 0xefd2868ce9fc4b, 0x34e93bf1e8ba0e);
  (0x1ec7ace4aa079df, 0x3653b21d6d240e, 0xefd2868ce9fc4b, 0x1a749df8f45d07);
  (0x32880e59247f84, 0x1bdf142478c707, 0x583a5b817c7dbf, 0x30a9d96f5b7c0e);
  (0x65101cb248ff08, 0x1bdf142478c707, 0xbd4a7833c57cc7, 0x343400dc26850e);
  (0x1876ab198577ad7, 0x35f914928c098e, 0xbd4a7833c57cc7, 0x1a1a006e134287);
  (0x4e4889eb44b22b, 0x35f914928c098e, 0x20b9645d3c1871, 0x168fd901483987);
  (0x4e4889eb44b22b, 0x1afc8a494604c7, 0x8fbb52a5bce30d, 0x318c634a8e3e4e);
  (0x9c9113d6896456, 0x1afc8a494604c7, 0x12c4c667c464763, 0x33c2bbee8d23ee);
  (0x4653e23fe4dc1b, 0x3c9c1e7e88ba6e, 0x1cbf10878c2d69, 0x18c631a5471f27);
  (0x7fd2034efd36ed, 0x371440e48b7c5e, 0x397e210f185ad2, 0x18c631a5471f27);
  (0x7fd2034efd36ed, 0x1b8a207245be2f, 0xf2ce456d2dec91, 0x345052178cdd56);
  (0x1f2724c0b285a6b, 0x35b2497e0c2cda, 0xf2ce456d2dec91, 0x1a28290bc66eab);
  (0x68d2c2e28d1299, 0x3876384b0acbe2, 0x2dfe80d8e048a8, 0x18c631a5471f27);
  (0x68d2c2e28d1299, 0x1c3b1c258565f1, 0xc4cfc4944da3e9, 0x35014dcacc8518);
  (0x196754a5967c91b, 0x36bbc30aeba87d, 0xc4cfc4944da3e9, 0x1a80a6e566428c);
  (0x5b8f4305b85c73, 0x3da5980b683611, 0x275cc0ea75ed95, 0x1a80a6e566428c);
  (0xb71e860b70b8e6, 0x3da5980b683611, 0x275cc0ea75ed95, 0xd405372b32146);
  (0x16e3d0c16e171cc, 0x3da5980b683611, 0x275cc0ea75ed95, 0x6a029b95990a3);
  (0x4af5121cabfa17, 0x3f15f06f1726c6, 0x7df59c87dfc51, 0x6a029b95990a3);
  (0x89efe0609bdc9f, 0x3a0b9f1cf1d5ef, 0xfbeb390fbf8a2, 0x6a029b95990a3);
  (0x117a43079779a51, 0x3ad68b508bf5d5, 0x1f7d6721f7f144, 0x6a029b95990a3);
  (0x2330cd0ab2f15b5, 0x3b3c016a5905c8, 0x3eface43efe288, 0x6a029b95990a3);
  (0x4ad27ac6464939, 0x275b843e4c53df, 0x3eface43efe288, 0x2120d09ebfd32f);
  (0x89cd490a362bc1, 0x243e2a6e861387, 0x7df59c87dfc510, 0x2120d09ebfd32f);
  (0x107c2e59215f0d1, 0x22af7d86a2f35b, 0xfbeb390fbf8a20, 0x2120d09ebfd32f);
  (0x371eea0415ab1a, 0x243e2a6e861387, 0x2b473d81bf4469, 0x1c74c9e71672ab);
  (0x6e3dd4082b5634, 0x243e2a6e861387, 0x62662785d4ef83, 0x20597a2ace4319);
  (0xd0a3fb8e0045b7, 0x224bd24caa2b50, 0xc4cc4f0ba9df06, 0x20597a2ace4319);
  (0x30d5669dcd7ec2, 0x2822dab23de3f5, 0x24fdba1b771811, 0x1e672208f25ae2);
  (0x86a88757121595, 0x37566bb6b71166, 0x24fdba1b771811, 0xf339104792d71);
  (0xd0a3fb8e0045b7, 0x2adec6dfd4b624, 0x11a9f6fc4ee75d9, 0x3a1257e44de395);
  (0xd0a3fb8e0045b7, 0x156f636fea5b12, 0x2353edf89dcebb2, 0x3a1257e44de395);
  (0x5f9768726db02d, 0x311a994b45e3c5, 0x710c931b92958a, 0x3a1257e44de395);
  (0xd0a3fb8e0045b7, 0x35967897c9e3ad, 0xe2192637252b14, 0x3a1257e44de395);
  (0x1b2bd21c52570cb, 0x37d4683e0be3a1, 0x1c4324c6e4a5628, 0x3a1257e44de395);
  (0x56f2a05aa1168f, 0x37d4683e0be3a1, 0x11752aa924e55d, 0xb35ae3f49ffc4);
  (0xade540b5422d1e, 0x37d4683e0be3a1, 0xbf5a6b5e67127b, 0x3d6f3f5db0e383);
  (0x15bca816a845a3c, 0x37d4683e0be3a1, 0x16d3fac13a93f99, 0x3aa1d3cdde6392);
  (0x3e933c04d8831a, 0x3239911e66e3bf, 0x11752aa924e55d, 0xe0319cf1c7fb5);
  (0x7d267809b10634, 0x3239911e66e3bf, 0x500866adfd6877, 0x201e5576c1b1ba);
  (0xfa4cf013620c68, 0x3239911e66e3bf, 0x500866adfd6877, 0x100f2abb60d8dd);
  (0x1ea66241d5a45cd, 0x313388a844b72b, 0xa010cd5bfad0ee, 0x100f2abb60d8dd);
  (0x220db5144753fd, 0x11153331830571, 0x7e031847b37cf1, 0x3f36a2776136e0);
  (0x441b6a288ea7fa, 0x11153331830571, 0xc21e82704224eb, 0x30b0846d33a0e1);
  (0x10639ec98d0cce5, 0x20e2dbcf5b5329, 0x1843d04e08449d6, 0x30b0846d33a0e1);
  (0x1b3e2a769f7664, 0x11153331830571, 0x62c4edd114068d, 0x3def17e3b67f27);
  (0x367c54ed3eecc8, 0x11153331830571, 0xb47f6d34f269b9, 0x389758bc1fc7bd);
  (0xeafbc222315681, 0x24d645f6d16697, 0x168feda69e4d372, 0x389758bc1fc7bd);
  (0x1262d8af74d7a3, 0xe69539db7a9bc, 0x4832f87b942a4a, 0x389758bc1fc7bd);
  (0xa2c8c9a69d2c37, 0x3fcc028afb9c9b, 0x9065f0f7285494, 0x389758bc1fc7bd);
  (0x14591934d3a586e, 0x3fcc028afb9c9b, 0x1332eba9dc580cb, 0x3c31ada38db22c);
  (0x411d1d75d87816, 0x3fcc028afb9c9b, 0x2eba44c663a073, 0x2dc85a05d60870);
  (0x823a3aebb0f02c, 0x3fcc028afb9c9b, 0x2eba44c663a073, 0x16e42d02eb0438);
  (0x1047475d761e058, 0x3fcc028afb9c9b, 0x2eba44c663a073, 0xb72168175821c);
  (0x208e8ebaec3c0b0, 0x3fcc028afb9c9b, 0x2eba44c663a073, 0x5b90b40bac10e);
  (0x557dad39ff4cc2, 0x3459ec09861a7f, 0x2eba44c663a073, 0x1c9d3843a5c546);
  (0xaafb5a73fe9984, 0x3459ec09861a7f, 0x2eba44c663a073, 0xe4e9c21d2e2a3);
  (0xd9b59f3a6239f7, 0x21544415ac7e91, 0x1372a28c7297add, 0x2fa2e0377f6134);
  (0x44648a94cc3d68, 0x3459ec09861a7f, 0x50ec8a10c9bf27, 0x3df17c595243d7);
  (0x88c91529987ad0, 0x3459ec09861a7f, 0x955114a595fc8f, 0x3925b4316c2f2b);
  (0x11e1a29cf2e775f, 0x36bfd01d7924d5, 0x12aa2294b2bf91e, 0x3925b4316c2f2b);
  (0x39386ec3094b13, 0x36bfd01d7924d5, 0xc87ff7bfd81bf, 0xbfd7463bf33ae);
  (0x7270dd86129626, 0x36bfd01d7924d5, 0x7ef8dd021017e5, 0x3cbe8a4f58beac);
  (0xe4e1bb0c252c4c, 0x36bfd01d7924d5, 0x7ef8dd021017e5, 0x1e5f4527ac5f56);
  (0x1c9c376184a5898, 0x36bfd01d7924d5, 0x7ef8dd021017e5, 0xf2fa293d62fab);
  (0x663dd81283af4a, 0x3d242c7da71ccf, 0x1964f900699e61, 0xf2fa293d62fab);
  (0xb26cc313c08a6d, 0x35598a1c94d5e8, 0x32c9f200d33cc2, 0xf2fa293d62fab);
  (0x17d948b170d7d75, 0x390c0a35f6ca4a, 0x6593e401a67984, 0xf2fa293d62fab);
  (0x3800216aae33fd, 0x29dc67a2209a9f, 0x2d93c296f84587, 0x2211c5410e53b8);
  (0x700042d55c67fa, 0x29dc67a2209a9f, 0x9d94056c54ad81, 0x3ae54a42a7c47b);
  (0x10d944841b1157b, 0x3260d8f2642f8d, 0x13b280ad8a95b02, 0x3ae54a42a7c47b);
  (0x35ea74d9f0377f, 0x3260d8f2642f8d, 0x2d93c296f84587, 0x2a96369151e8a6);
  (0x6bd4e9b3e06efe, 0x3260d8f2642f8d, 0x2d93c296f84587, 0x154b1b48a8f453);
  (0xd7a9d367c0ddfc, 0x3260d8f2642f8d, 0x9968ac4ad8b485, 0x23d5fa1d8691f0);
  (0x1af53a6cf81bbf8, 0x3260d8f2642f8d, 0x9968ac4ad8b485, 0x11eafd0ec348f8);
  (0x6b2b48fc64e52d, 0x3e95ff7aa31200, 0x5c7ac69ce79eb, 0x3601e39e5ab5b);
  (0x8dd953773bc0af, 0x296b5a6b028b11, 0x9968ac4ad8b485, 0x2ccb78a4e8366c);
  (0x1b51b53395035e3, 0x3fd116bd76a647, 0x9968ac4ad8b485, 0x1665bc52741b36);
  (0x1a0ecbba52f5c5, 0x13059e188e6fdb, 0x4b3c491bdfd336, 0x36ebd35299387d);
  (0x341d9774a5eb8a, 0x13059e188e6fdb, 0x9968ac4ad8b485, 0x37fe56ce224407);
  (0xcd8643bf7ea00f, 0x2581fa735859f1, 0x132d15895b1690a, 0x37fe56ce224407);
  (0x3df37d54f54b07, 0x3887988be6c9cc, 0x13abcbc09ebefa, 0x11f31a9d056451);
  (0x3df37d54f54b07, 0x1c43cc45f364e6, 0x654b14d632c8fb, 0x2e36e6e2f8c937);
  (0x3df37d54f54b07, 0xe21e622f9b273, 0x10889a7015adcfd, 0x3c58cd05f27baa);
  (0x7be6faa9ea960e, 0xe21e622f9b273, 0x200579c55300919, 0x3a7032c8eca2bb);
  (0x18c7cbbb955136, 0xe21e622f9b273, 0x5b1314e045a483, 0x33f0b59a0a5404);
  (0x318f97772aa26c, 0xe21e622f9b273, 0xbe3243ce9ae95b, 0x363c2712f88ee8);
  (0x631f2eee5544d8, 0xe21e622f9b273, 0x18470a1ab45730b, 0x3761dfcf6fac5a);
  (0x19c0536032011, 0x125b8bc771d72, 0x59770faa428472, 0x3fc72a4415cb93);
  (0x19c0536032011, 0x92dc5e3b8eb9, 0xb2ee1f548508e4, 0x3fc72a4415cb93);
  (0xc4a258a6a7699f, 0x230b51285276c3, 0xc16a4e3aa1297d, 0x227874ca16e80a);
  (0x289d4919572ec7, 0x243109e4c99435, 0x25653ead50eea5, 0x2152bc0d9fca98);
  (0x769fd0dfff4c33, 0x34da67eb997981, 0x25653ead50eea5, 0x10a95e06cfe54c);
  (0x112a4e06d4f870b, 0x3d2f16ef016c27, 0x25653ead50eea5, 0x854af0367f2a6);
  (0x22549c0da9f0e16, 0x3d2f16ef016c27, 0x25653ead50eea5, 0x42a5781b3f953);
  (0x5ee640b332a35c, 0x34da67eb997981, 0x25653ead50eea5, 0x14d3b58883de9f);
  (0xbdcc81666546b8, 0x34da67eb997981, 0x844b7f60839201, 0x24d70eba0eac10);
  (0x17b9902ccca8d70, 0x34da67eb997981, 0x844b7f60839201, 0x126b875d075608);
  (0x3175e715a7cbe3, 0x226ee08e922379, 0x52d5984adbc61e, 0x39aac442928aaf);
  (0x62ebce2b4f97c6, 0x226ee08e922379, 0x844b7f60839201, 0x2e0cd268925714);
  (0x14a231bb722c18d, 0x397549c2db4f03, 0x844b7f60839201, 0x17066934492b8a);
  (0x279185aaeca31c, 0x226ee08e922379, 0x3528740aaa4bc9, 0x2e424ce84992c0);
  (0x4f230b55d94638, 0x226ee08e922379, 0x844b7f60839201, 0x39900702b6ecd9);
  (0xd36e8ab65cd839, 0x2dff73c8a48829, 0x10896fec1072402, 0x39900702b6ecd9);
  (0x1a6dd156cb9b072, 0x2dff73c8a48829, 0x1dc05897763fc3b, 0x33c7bd65adba81);
  (0x728c0dfbaac5b1, 0x3e4cec212bf4d5, 0xaa1b0ceeedbf5, 0x5c8499d093258);
  (0xe5181bf7558b62, 0x3e4cec212bf4d5, 0xaa1b0ceeedbf5, 0x2e424ce84992c);
  (0x1d4d1e8bd99f2b9, 0x3fbefe886e416b, 0xaa1b0ceeedbf5, 0x1721267424c96);
  (0x5c760f535f21d8, 0x3edc3f45505361, 0x220568fc95f31, 0x1721267424c96);
  (0xbb0c753687a2e1, 0x3f954878f179ac, 0x220568fc95f31, 0xb90933a1264b);
  (0x1762a36a3c05bb9, 0x3f98391c2b51ba, 0x440ad1f92be62, 0xb90933a1264b);
  (0x49fb81e73c52ab, 0x3edf2fe88a2b6f, 0x440ad1f92be62, 0x39d2e0225bf77);
  (0x924700fffaf72d, 0x3e279f0685f12b, 0x8815a3f257cc4, 0x39d2e0225bf77);
  (0x122ddff31784031, 0x3dcbd69583d409, 0x1102b47e4af988, 0x39d2e0225bf77);
  (0x2440bfb9472d239, 0x3d9df25d02c578, 0x220568fc95f310, 0x39d2e0225bf77);
  (0x6666a1ebdafc05, 0x36639658b7468a, 0x220568fc95f310, 0x1211e60abcbd53);
  (0x6666a1ebdafc05, 0x1b31cb2c5ba345, 0xaa7173e506e225, 0x2d43b137186098);
  (0x1773eb7bcbcda2f, 0x31d3a3c7e7d391, 0xaa7173e506e225, 0x16a1d89b8c304c);
  (0x28f5da5e579802, 0x1b31cb2c5ba345, 0x5885bf2857b221, 0x3ac5a4b105aaf2);
  (0x51ebb4bcaf3004, 0x1b31cb2c5ba345, 0xaa7173e506e225, 0x38949d84de78be);
  (0x14e48dd5e65422d, 0x377c19eecadfa4, 0xaa7173e506e225, 0x1c4a4ec26f3c5f);
  (0x40375b4e373f97, 0x354b12c2a3ad70, 0x2368b2dcefe0da, 0x1d62d25882d579);
  (0x40375b4e373f97, 0x1aa5896151d6b8, 0x8708c10817014b, 0x38085bb9d4ac31);
  (0x40375b4e373f97, 0xd52c4b0a8eb5c, 0x10e1182102e0296, 0x38085bb9d4ac31);
  (0x25c5a5f6e9344c3, 0x3eb1be122921df, 0x21c2304205c052c, 0x38085bb9d4ac31);
  (0x40375b4e373f97, 0x214eebb9a64c66, 0x5f2f21c3a0f451, 0x315ef961803683);
  (0x40375b4e373f97, 0x10a775dcd32633, 0xbe5e438741e8a2, 0x315ef961803683);
  (0xfe959ed5792839, 0x2103379f29ae5b, 0x17cbc870e83d144, 0x315ef961803683);
  (0x1a2480fff6dddd, 0x10f329f74fc43e, 0x4c25b49c80c374, 0x315ef961803683);
  (0xb26fea38f864c5, 0x39d88e5d2818a2, 0x984b69390186e8, 0x315ef961803683);
  (0xb26fea38f864c5, 0x1cec472e940c51, 0x13096d272030dd0, 0x315ef961803683);
  (0x2e24fc0b6139b3, 0x2565dc2a3bee70, 0x2800f616d4b7ac, 0x206bcf6a307245);
  (0x2e24fc0b6139b3, 0x12b2ee151df738, 0x7e26e8390aa90b, 0x331ebd7f4e697d);
  (0x2e24fc0b6139b3, 0x959770a8efb9c, 0x12a72cc7d768bc9, 0x3c783489dd6519);
  (0x2e24fc0b6139b3, 0x4acbb85477dce, 0x254e598faed1792, 0x3c783489dd6519);
  (0x2e24fc0b6139b3, 0x175fa99a657506, 0x6e2685c9825f93, 0x37cb790495e74b);
  (0x2e24fc0b6139b3, 0xbafd4cd32ba83, 0xdc4d0b9304bf26, 0x37cb790495e74b);
  (0x1c305f7cbeadfa5, 0x391d508349c5ed, 0x166bbffb5286c3f, 0x2d6d7bb6170b6a);
  (0x5c49f816c27366, 0x3a6f2801fda48f, 0x22d4cfe7ed8117, 0x160dd21bb19664);
  (0xb893f02d84e6cc, 0x3a6f2801fda48f, 0x22d4cfe7ed8117, 0xb06e90dd8cb32);
  (0x193fcb042f74eaf, 0x3ff29c88ea0a28, 0x22d4cfe7ed8117, 0x5837486ec6599);
  (0x34eeb020a6a877, 0x29e4ca6d3873c4, 0x22d4cfe7ed8117, 0x1b9146a29dfbfd);
  (0x7a984ff081aaa5, 0x3083abd93a35df, 0x45a99fcfdb022e, 0x1b9146a29dfbfd);
  (0xf5309fe103554a, 0x3083abd93a35df, 0xc041efc05cacd3, 0x260a793dec18ee);
  (0x3b9fdccd21ff8d, 0x3afcde748852d0, 0x6b12cac7b5716, 0x69ee16c01c21b);
  (0x3b9fdccd21ff8d, 0x1d7e6f3a442968, 0x4902362618adb9, 0x241d50a645eb83);
  (0x3b9fdccd21ff8d, 0xebf379d2214b4, 0xcda44919535aff, 0x32dc8843680037);
  (0x3b9fdccd21ff8d, 0x75f9bce910a5a, 0x1d6e86effc8b58b, 0x3a3c2411f90a91);
  (0x3b9fdccd21ff8d, 0x24de0b08d533c2, 0x5241b6d6ee2466, 0x32dc8843680037);
  (0x3b9fdccd21ff8d, 0x126f05846a99e1, 0xa4836daddc48cc, 0x32dc8843680037);
  (0x773fb99a43ff1a, 0x126f05846a99e1, 0x157630415424773, 0x3514cc6853e6ed);
  (0x4a6bdde81123d5, 0x398554b22bb459, 0x2cd3dbb232db45, 0x22a5c6e3e94d0c);
  (0x94d7bbd02247aa, 0x398554b22bb459, 0x2cd3dbb232db45, 0x1152e371f4a686);
  (0x129af77a0448f54, 0x398554b22bb459, 0x2cd3dbb232db45, 0x8a971b8fa5343);
  (0x40950134d5b4ba, 0x3e651ab16e10ef, 0x8f72bf0709241, 0x8a971b8fa5343);
  (0x7f5734c7e9b481, 0x3d839b60232be2, 0x11ee57e0e12482, 0x8a971b8fa5343);
  (0xeaed440d308f8d, 0x38be22db008fba, 0x23dcafc1c24904, 0x8a971b8fa5343);
  (0x209d2c21b42d7ad, 0x3f04d8516994e9, 0x47b95f83849208, 0x8a971b8fa5343);
  (0x4baccd6a71f0b9, 0x2db1f4df74ee63, 0x47b95f83849208, 0x2b4f389ce3a04f);
  (0x97599ad4e3e172, 0x2db1f4df74ee63, 0x93662cedf682c1, 0x2c8096be2c4759);
  (0x12abfc7c2da6433, 0x2d1945ced09ade, 0x126cc59dbed0582, 0x2c8096be2c4759);
  (0x3e1ed04b20800e, 0x2ee35300bd956d, 0x3a2b626433215d, 0x2be7e7ad87f3d4);
  (0x7c3da09641001c, 0x2ee35300bd956d, 0x3a2b626433215d, 0x15f3f3d6c3f9ea);
  (0x132a6a390b52195, 0x39dd4cec1f9262, 0x3a2b626433215d, 0xaf9f9eb61fcf5);
  (0x260ff95b42f95f, 0x23e959155b9878, 0x3a2b626433215d, 0x36e1e198e9f0c9);
  (0x260ff95b42f95f, 0x11f4ac8aadcc3c, 0x7456c4c86642ba, 0x36e1e198e9f0c9);
  (0x260ff95b42f95f, 0x8fa564556e61e, 0x10ebd82ec0f7ed3, 0x3fdc37de40d6e7);
  (0x260ff95b42f95f, 0x47d2b22ab730f, 0x21d7b05d81efda6, 0x3fdc37de40d6e7);
  (0x260ff95b42f95f, 0x1671d7ad593f4b, 0x55756b8e1136b5, 0x3264b6763e7dba);
  (0xa1955e44972973, 0x2fa432e8787e28, 0x55756b8e1136b5, 0x19325b3b1f3edd);
  (0xa1955e44972973, 0x17d219743c3f14, 0x14c803560b996dd, 0x310474af5b7df1);
  (0x1c9548eab35381, 0x151195e6763f82, 0x42800aacf1eaf9, 0x310474af5b7df1);
  (0xa1955e44972973, 0x3b8d3fa2969db2, 0x85001559e3d5f2, 0x310474af5b7df1);
  (0xa1955e44972973, 0x1dc69fd14b4ed9, 0x10a002ab3c7abe4, 0x310474af5b7df1);
  (0x372ee6c97a7e4b, 0x32d835b7c18e5b, 0x35333bbd8e5594, 0x310474af5b7df1);
  (0x6c62228708d3df, 0x31ee55338e8626, 0x6a66777b1cab28, 0x310474af5b7df1);
  (0x6c62228708d3df, 0x18f72a99c74313, 0xd4cceef6395650, 0x310474af5b7df1);
  (0x1412f117d422a2f, 0x24fdcfa4916082, 0x1a999ddec72aca0, 0x310474af5b7df1);
  (0x403c9d190d3ba3, 0x24fdcfa4916082, 0x686acc6f308271, 0x3c213935f2932b);
  (0x403c9d190d3ba3, 0x127ee7d248b041, 0xd0d598de6104e2, 0x3c213935f2932b);
  (0x80793a321a7746, 0x127ee7d248b041, 0x1918b702988b7cb, 0x39cef8566651f7);
  (0x302a23c36585b7, 0x22ab8ec5051f4e, 0x504f166eb4f18f, 0x39cef8566651f7);
  (0x302a23c36585b7, 0x1155c762828fa7, 0xa09e2cdd69e31e, 0x39cef8566651f7);
  (0xd0c850a0cf68d5, 0x25925fdc7470cf, 0x1413c59bad3c63c, 0x39cef8566651f7);
  (0x100a8130b6beb1, 0xe6ef64b133e26, 0x403f45255d8e0c, 0x39cef8566651f7);
  (0x100a8130b6beb1, 0x7377b25899f13, 0x807e8a4abb1c18, 0x39cef8566651f7);
  (0x90890b7b71dac9, 0x208339bdf7f885, 0x100fd1495763830, 0x39cef8566651f7);
  (0x1211216f6e3b592, 0x208339bdf7f885, 0x191862010e812f9, 0x2d29190a2f253e);
  (0x5d233a90c09c59, 0x3460942fb8c451, 0x66cba1d5627ce0, 0x39cef8566651f7);
  (0xc3eedc66231939, 0x3717c6430f8b24, 0xcd9743aac4f9c0, 0x39cef8566651f7);
  (0xc3eedc66231939, 0x1b8be32187c592, 0x19b2e875589f380, 0x39cef8566651f7);
  (0x1f75d9771f1e39, 0x161d7efada37ec, 0x523c817781fd80, 0x39cef8566651f7);
  (0x1f75d9771f1e39, 0xb0ebf7d6d1bf6, 0xa47902ef03fb00, 0x39cef8566651f7);
  (0x1f75d9771f1e39, 0x5875fbeb68dfb, 0x16867df55271439, 0x3f5658151cdff2);
  (0x1f75d9771f1e39, 0x1ba4deb990c5e7, 0x41ca012c67fe00, 0x39cef8566651f7);
  (0x613fdaa3871c39, 0x2ab9eb87fb8bef, 0x83940258cffc00, 0x39cef8566651f7);
  (0xe4d3dcfc571839, 0x324471ef30eef3, 0x1072804b19ff800, 0x39cef8566651f7);
  (0x1c9a7b9f8ae3072, 0x324471ef30eef3, 0x1ebfbe1adf71039, 0x3609b522cba075);
  (0x40116bd3e889de, 0x232f6520c628eb, 0x626593893169a5, 0x3609b522cba075);
  (0xa276ff5d19f383, 0x2c9c8d21c8e4b0, 0xc4cb271262d34a, 0x3609b522cba075);
  (0xa276ff5d19f383, 0x164e4690e47258, 0x189964e24c5a694, 0x3609b522cba075);
  (0x3341230fed3b18, 0x232f6520c628eb, 0x3bf4b93d3f7d53, 0x29289692e9e9e2);
  (0xa276ff5d19f383, 0x37c3b06a3b1ddc, 0x3bf4b93d3f7d53, 0x14944b4974f4f1);
  (0xa276ff5d19f383, 0x1be1d8351d8eee, 0x11a6071d798ee29, 0x3076237e9283df);
  (0x42890a2e4df7cb, 0x39180be3bff6e2, 0x17fb7d4bb2feee, 0x14944b4974f4f1);
  (0x728004c5b3f5a7, 0x3120513b54f062, 0x2ff6fa9765fddc, 0x14944b4974f4f1);
  (0xd26df9f47ff15f, 0x2d2473e71f6d22, 0x5fedf52ecbfbb8, 0x14944b4974f4f1);
  (0xd26df9f47ff15f, 0x169239f38fb691, 0x19249e45217e8cf, 0x2b26853d04ab82);
  (0x2a15feca7ffd13, 0x169239f38fb691, 0x6bafecc897fd4a, 0x39c10488295b93);
  (0x542bfd94fffa26, 0x169239f38fb691, 0xe9f1e92817f483, 0x3ebbd9316c3fa3);
  (0xa857fb29fff44c, 0x169239f38fb691, 0x13e1de6bd17eea9, 0x2aa709927dfb1a);
  (0x2562022694c93f, 0x190fa448312899, 0x5d93f6dcd661ce, 0x3ebbd9316c3fa3);
  (0x4ac4044d29927e, 0x190fa448312899, 0x82f5f9036b2b0d, 0x2be5bebcceb41e);
  (0x1187e019dbe5009, 0x2f0283a69882a8, 0x82f5f9036b2b0d, 0x15f2df5e675a0f);
  (0x46f47331dfa4c1, 0x3b75974dbfbcd0, 0x1a3131cd7bd569, 0x15f2df5e675a0f);
  (0x7b56d6ccd74f93, 0x33adab05473877, 0x3462639af7aad2, 0x15f2df5e675a0f);
  (0x1187e019dbe5009, 0x3ac324903ea352, 0x68c4c735ef55a4, 0x15f2df5e675a0f);
  (0x1ea0790099cfb51, 0x335471a686abb8, 0xd1898e6bdeab48, 0x15f2df5e675a0f);
  (0x70dcc2e10c2d69, 0x3b1c5deeff3011, 0x29e84faf2c88a8, 0x15f2df5e675a0f);
  (0xee95b1ee91c761, 0x3e7a7e051a9f1f, 0x53d09f5e591150, 0x15f2df5e675a0f);
  (0x14266514cead8b1, 0x2a36aeb1c0fc97, 0xa7a13ebcb222a0, 0x15f2df5e675a0f);
  (0x57b7c644be41d1, 0x396d4de3f1788a, 0x2186a625bd3a20, 0x15f2df5e675a0f);
  (0x9ac5129038b611, 0x32a98650601654, 0x430d4c4b7a7440, 0x15f2df5e675a0f);
  (0x120dfab272d9e91, 0x2f47a286976539, 0x861a9896f4e880, 0x15f2df5e675a0f);
  (0x23164f4eb280ba, 0x1cb6a6f1f8bc45, 0x318224a42133e3, 0x2883daf3060303);
  (0x549873f2d3b49d, 0x229d40f27f5fa4, 0x630449484267c6, 0x2883daf3060303);
  (0x549873f2d3b49d, 0x114ea0793fafd2, 0x11aa10683588429, 0x39d27b6c45b2d5);
  (0x549873f2d3b49d, 0x8a7503c9fd7e9, 0x235420d06b10852, 0x39d27b6c45b2d5);
  (0x549873f2d3b49d, 0x2b44912f1f378d, 0x4f36a1069b8638, 0x2883daf3060303);
  (0xa930e7e5a7693a, 0x2b44912f1f378d, 0xa3cf14f96f3ad5, 0x29e43611129d48);
  (0x15261cfcb4ed274, 0x2b44912f1f378d, 0xa3cf14f96f3ad5, 0x14f21b08894ea4);
  (0x25114688766415, 0x17b2d144a2832e, 0x3f5ee7387c6b60, 0x2883daf3060303);
  (0x25114688766415, 0xbd968a2514197, 0xa3cf14f96f3ad5, 0x345d439557449a);
  (0xedf1a20a5c02ff, 0x26080a6cfce3e4, 0xa3cf14f96f3ad5, 0x1a2ea1caaba24d);
  (0x4d3e25a2711d77, 0x3dbadbb19f6712, 0x31b989184554d, 0x27bd086091f1f);
  (0x4d3e25a2711d77, 0x1edd6dd8cfb389, 0x537556c579c811, 0x21593e5ed8d2a8);
  (0xedf1a20a5c02ff, 0x2f8a0d083c1cdd, 0x537556c579c811, 0x10ac9f2f6c6954);
  (0x2d1a3ff40eef8f, 0x2d0e3c8232fdbe, 0x132d8b68b56c41, 0x13286fb5758873);
  (0x2d1a3ff40eef8f, 0x16871e41197edf, 0x537556c579c811, 0x29af8df68f0752);
  (0xada9d6ad97a72f, 0x2b5ee53c610288, 0x537556c579c811, 0x14d7c6fb4783a9);
  (0xada9d6ad97a72f, 0x15af729e308144, 0x1549484388b3751, 0x2a8739997804ed);
  (0x46d0914c5d7aaf, 0x2c3690df4a0023, 0x2008b414dcb1d1, 0x14001b585e860e);
  (0xada9d6ad97a72f, 0x36369e8b79432a, 0x2008b414dcb1d1, 0xa000dac2f4307);
  (0xada9d6ad97a72f, 0x1b1b4f45bca195, 0xedbb3ed7510ad1, 0x251b5cf1ebe49c);
  (0x91b01453a932f, 0x71b33ed5e1b87, 0x492c696ef3f6d1, 0x391b784a4a6aaa);
  (0x5b626bf9691d2f, 0x23a8f0128350dc, 0x492c696ef3f6d1, 0x1c8dbc25253555);
  (0x5b626bf9691d2f, 0x11d4780941a86e, 0xedbb3ed7510ad1, 0x2e62342e66ddc3);
  (0x3e1d75003aba75, 0x3c989c092314d1, 0x1d44f6f92e62ba, 0x1c8dbc25253555);
  (0x5b626bf9691d2f, 0x2c932c17242513, 0x3a89edf25cc574, 0x1c8dbc25253555);
  (0x95ec59ebc5e2a3, 0x2490741e24ad34, 0x7513dbe4b98ae8, 0x1c8dbc25253555);
  (0x95ec59ebc5e2a3, 0x12483a0f12569a, 0x1801411b538f873, 0x2ed5f634378bef);
  (0x1dfc11fbf46087, 0x12483a0f12569a, 0x543b5dddad332d, 0x335b8a6e5e59a7);
  (0x1dfc11fbf46087, 0x9241d07892b4d, 0xc672cdb74ec6e1, 0x3c7fa775e784f4);
  (0x3bf823f7e8c10e, 0x9241d07892b4d, 0x17a5b399f090a0b, 0x39ac2ad18f4461);
  (0x3bf823f7e8c10e, 0x2db49125add881, 0x4babd85301cecf, 0x39ac2ad18f4461);
  (0x77f047efd1821c, 0x2db49125add881, 0x87a3fc4aea8fdd, 0x33b05dfb9e8e71);
  (0xefe08fdfa30438, 0x2db49125add881, 0xff94443abc11f9, 0x30b27790a63379);
  (0x29b1d4a1e361be, 0x27b8c44fbd2291, 0x396588fcfc6f7f, 0x36ae446696e969);
  (0x5363a943c6c37c, 0x27b8c44fbd2291, 0x63175d9edfd13d, 0x2f33845b2a05fd);
  (0xb67b06e2a694b9, 0x2b762455739447, 0xc62ebb3dbfa27a, 0x2f33845b2a05fd);
  (0x17ca9c220663733, 0x2d54d4584ecd22, 0x18c5d767b7f44f4, 0x2f33845b2a05fd);
  (0x42b62103056930, 0x27b8c44fbd2291, 0x5269d55e1e76f1, 0x3112345e053ed8);
  (0x856c42060ad260, 0x27b8c44fbd2291, 0x5269d55e1e76f1, 0x18891a2f029f6c);
  (0x15d42596a341bb1, 0x33fd51673e7247, 0x5269d55e1e76f1, 0xc448d17814fb6);
  (0x24e2efbc64a2c3, 0x1b7437383bd2db, 0x5269d55e1e76f1, 0x3d56c175868e8e);
  (0x9c2fb4d6e7bc77, 0x3a1f97f2ff1a22, 0x5269d55e1e76f1, 0x1eab60bac34747);
  (0x141035f9324aa59, 0x3bbb2cb442d458, 0xa4d3aabc3cede2, 0x1eab60bac34747);
  (0x1f3cbdc494bf4b, 0x1d0fcbf97f8d11, 0x27e0b3a9e9f0b6, 0x2519b3bfd2301f);
  (0x3e797b89297e96, 0x1d0fcbf97f8d11, 0x8596ecf7a82e97, 0x3e248bd6286ba9);
  (0x7cf2f71252fd2c, 0x1d0fcbf97f8d11, 0xc4106880d1ad2d, 0x2d9a2be7d3fc5d);
  (0x141035f9324aa59, 0x2554fbf0a9c4b7, 0x18820d101a35a5a, 0x2d9a2be7d3fc5d);
  (0x31fac93a879878, 0x1d0fcbf97f8d11, 0x471d716e7eb001, 0x2959efd3d3163e);
  (0x63f592750f30f0, 0x1d0fcbf97f8d11, 0xab1303e38de0f1, 0x31bcc3e3691830);
  (0x172fe28cdac42d1, 0x35ee2deb341929, 0xab1303e38de0f1, 0x18de61f1b48c18);
  (0x27fbd42ed2e060, 0x1d0fcbf97f8d11, 0x331f8757153fd1, 0x252885cc081545);
  (0x4ff7a85da5c0c0, 0x1d0fcbf97f8d11, 0xab1303e38de0f1, 0x3e2bf4dc435e3c);
  (0x14b02549ed96271, 0x3c25c667a13c2f, 0xab1303e38de0f1, 0x1f15fa6e21af1e);
  (0x3dbefc7610ed83, 0x3819697e5cf815, 0x247157cf29a67a, 0x211c28e2c3d12b);
  (0x623054453a93fd, 0x2c9ac9309064a0, 0x48e2af9e534cf4, 0x211c28e2c3d12b);
  (0x623054453a93fd, 0x164d6498483250, 0xf3f5b381e12de5, 0x37698d7b0c037b);
  (0x623054453a93fd, 0xb26b24c241928, 0x1e7eb6703c25bca, 0x37698d7b0c037b);
  (0x623054453a93fd, 0x37c17b7cb47dc8, 0x61957b00c078c2, 0x37698d7b0c037b);
  (0x623054453a93fd, 0x1be0bdbe5a3ee4, 0xc32af60180f184, 0x37698d7b0c037b);
  (0x623054453a93fd, 0xdf05edf2d1f72, 0x18655ec0301e308, 0x37698d7b0c037b);
  (0x141f25116d6695, 0xe484ce0d599bf, 0x4e112f33cd2d68, 0x37698d7b0c037b);
  (0x623054453a93fd, 0x22d8ed2df0ce9d, 0x9c225e679a5ad0, 0x37698d7b0c037b);
  (0xc460a88a7527fa, 0x22d8ed2df0ce9d, 0xfe52b2acd4eecd, 0x2d213d547e690c);
  (0x1018ea74578544, 0xe484ce0d599bf, 0x39f20a225fc6d3, 0x336990c0c4042b);
  (0x6a3cc97f66569f, 0x2f213bb1a268b4, 0x4a0af496b74c17, 0x20d8eed0cccef5);
  (0x6a3cc97f66569f, 0x17909dd8d1345a, 0xfe52b2acd4eecd, 0x38698ca99e034f);
  (0x6a3cc97f66569f, 0xbc84eec689a2d, 0x1fca56559a9dd9a, 0x38698ca99e034f);
  (0x6a3cc97f66569f, 0x3ae98a9e0b02e1, 0x3b3bf6def909ac, 0x20d8eed0cccef5);
  (0xa578c05e5f604b, 0x2de13cb76be8eb, 0x7677edbdf21358, 0x20d8eed0cccef5);
  (0x14af180bcbec096, 0x2de13cb76be8eb, 0x11bf0ae1c5173a3, 0x275d15c41c5bf0);
  (0x96690867c4297, 0x68426f34f8cfb, 0x5686d3141ffd40, 0x3bfa3adf073b19);
  (0x12cd210cf8852e, 0x68426f34f8cfb, 0xab21e7ce7e548f, 0x3b4fccb66997f6);
  (0x1418af036427dff, 0x37b8822872ffe7, 0x11bf0ae1c5173a3, 0x31345b352372ec);
  (0x785406b969bac, 0x68426f34f8cfb, 0x495da257d86cd3, 0x3f91856cfdd328);
  (0xf0a80d72d3758, 0x68426f34f8cfb, 0x8587a5b48d4a33, 0x39d95e83bd1d80);
  (0x1e1501ae5a6eb0, 0x68426f34f8cfb, 0x11bf0ae1c5173a3, 0x3d8172026c4fa7);
  (0x1762fb32760bfb3, 0x2886f36e2d7b4c, 0x13a05afcaabe253, 0x2202cc7addee51);
  (0x4ad65707e02657, 0x2886f36e2d7b4c, 0x5982aab30b6f4e, 0x3079241bcd35b1);
  (0x4ad65707e02657, 0x144379b716bda6, 0xb305556616de9c, 0x3079241bcd35b1);
  (0x4ad65707e02657, 0xa21bcdb8b5ed3, 0x1b0e101d40de38f, 0x3a9ae0f7589484);
  (0x4ad65707e02657, 0x32a8b049b8da1f, 0x29ac65bf491682, 0x1c35aa64b6780b);
  (0x95acae0fc04cae, 0x32a8b049b8da1f, 0x7482bcc7293cd9, 0x276f2d5737a915);
  (0x12b595c1f80995c, 0x32a8b049b8da1f, 0x10a2f6ad6e98987, 0x2d0beed078419a);
  (0x4280a914d1883d, 0x384571c2f972a4, 0x2156b7cc3a7868, 0x1c35aa64b6780b);
  (0x4280a914d1883d, 0x1c22b8e17cb952, 0x852e18ad46790d, 0x3858634633315d);
  (0x4280a914d1883d, 0xe115c70be5ca9, 0x10a5c315a8cf21a, 0x3858634633315d);
  (0x256df7ec2a49b4b, 0x3f5798bcf58055, 0x1d1de2c99018ad1, 0x31463c4c3723ac);
  (0x77c64c8d541f0f, 0x3f5798bcf58055, 0x6a8b46f1052da4, 0x3858634633315d);
  (0xef8c991aa83e1e, 0x3f5798bcf58055, 0xe251937e594cb3, 0x3bd7fe019458d9);
  (0x1df193235507c3c, 0x3f5798bcf58055, 0x1d1de2c99018ad1, 0x3d97cb5f44ec97);
  (0xd3b059c4ef16b, 0x8bf02d472e2b6, 0x553c38c0d0f150, 0x3858634633315d);
  (0xd3b059c4ef16b, 0x45f816a39715b, 0xb7b3771df0d40b, 0x3cb7e4b06ca2b8);
  (0xd22982568eb6e1, 0x22bb73c26fc2b7, 0xb7b3771df0d40b, 0x1e5bf25836515c);
  (0x39e8ba667b4647, 0x2fd9f8011c16c8, 0x1f72af2ddd6371, 0x19fc70edfce001);
  (0x78ce18c2360d29, 0x31e96cee8aeb65, 0x3ee55e5bbac6e2, 0x19fc70edfce001);
  (0xf19c31846c1a52, 0x31e96cee8aeb65, 0xb7b3771df0d40b, 0x25f2eeee43e5b3);
  (0x1a94fa8a25cee5d, 0x2bee2dee67688c, 0x16f66ee3be1a816, 0x25f2eeee43e5b3);
  (0x77cec4c45c8d0a, 0x3ddfeaeed1f117, 0x3de60a5de146c3, 0x1ff7afee2062da);
  (0xef9d8988b91a14, 0x3ddfeaeed1f117, 0x3de60a5de146c3, 0xffbd7f710316d);
  (0x1a94fa8a25cee5d, 0x36e9b96a0142af, 0x7bcc14bbc28d86, 0xffbd7f710316d);
  (0x5fd89d69e3a408, 0x3ddfeaeed1f117, 0xdf9bba8ef74bf, 0x905a6723f8305);
  (0xbfb13ad3c74810, 0x3ddfeaeed1f117, 0x6dd25912d318c7, 0x2372c8b088ba0e);
  (0x17f6275a78e9020, 0x3ddfeaeed1f117, 0x6dd25912d318c7, 0x11b96458445d07);
  (0x4be2490c72b126, 0x3d3c19d65c9f11, 0x15f6de9d5d6b5b, 0x11b96458445d07);
  (0x8dc6e4e48af337, 0x3934236f94db13, 0x2bedbd3abad6b6, 0x11b96458445d07);
  (0x111901c94bb7759, 0x3730283c30f914, 0x57db7a7575ad6c, 0x11b96458445d07);
  (0x270fe066a922d09, 0x3f0adccea13698, 0xafb6f4eaeb5ad8, 0x11b96458445d07);
  (0x7cff9ae21d3c35, 0x3f0adccea13698, 0x32b75a08ce1ea3, 0x199418eab49a8b);
  (0x7cff9ae21d3c35, 0x1f856e67509b4c, 0xe26e4ef3b9797b, 0x391987520535d7);
  (0x7cff9ae21d3c35, 0xfc2b733a84da6, 0x1c4dc9de772f2f6, 0x391987520535d7);
  (0x546cec74ab8a19, 0x35397b1794e9b3, 0x2892ae6d71b21c, 0x199418eab49a8b);
  (0x7cff9ae21d3c35, 0x2766ca0124c21f, 0x51255cdae36438, 0x199418eab49a8b);
  (0xf9ff35c43a786a, 0x2766ca0124c21f, 0xce24f7bd00a06d, 0x207d7175ecae55);
  (0x8c53f9b0b9199, 0x6e9588b3813ca, 0x4a963da7531876, 0x3ac70725563ed3);
  (0x8c53f9b0b9199, 0x374ac459c09e5, 0x9df1bae9b1c285, 0x3e3bb36af248b8);
  (0x118a7f36172332, 0x374ac459c09e5, 0x13bd033d081ff47, 0x3e37e827f57d69);
  (0x118a7f36172332, 0x11475d5c0c3179, 0x34a357a2d8eabd, 0x33d9e357215fba);
  (0x7acd547b357785, 0x3c7bac63a912cf, 0x57b8560f073121, 0x2b344f079ce156);
  (0xf59aa8f66aef0a, 0x3c7bac63a912cf, 0x57b8560f073121, 0x159a2783ce70ab);
  (0x1fcc3ab2380826d, 0x3ea511778a3268, 0xaf70ac1e0e6242, 0x159a2783ce70ab);
  (0x65b4689edb4999, 0x3e9d7af1909bca, 0x382dea4888745, 0x2296513e11f99);
  (0xabedcd7985dafd, 0x34ecb03f9389df, 0xb2f38ac296e987, 0x3716155374a978);
  (0x157db9af30bb5fa, 0x34ecb03f9389df, 0xb2f38ac296e987, 0x1b8b0aa9ba54bc);
  (0x20fb3670175c17, 0x1961a595d93523, 0x5001e77250d542, 0x3d92448f180843);
  (0x41f66ce02eb82e, 0x1961a595d93523, 0x70fd1de2683159, 0x2b79f512789eb3);
  (0x136e06482f459e3, 0x3bcf72ea021f0e, 0xb2f38ac296e987, 0x226dcd5428e9eb);
  (0x10fad4f2d3fe3d, 0x10557dd789805b, 0x400185f50d7768, 0x3d92448f180843);
  (0x72f204cd89721f, 0x37495f0ada44aa, 0x50fc5ae7e175a5, 0x26f3e13350c44f);
  (0x72f204cd89721f, 0x1ba4af856d2255, 0xa1f8b5cfc2eb4a, 0x26f3e13350c44f);
  (0x1facec4385f41a7, 0x3cf0f7e1cc15a7, 0x114eaba9d4c5d69, 0x214c485c5ef352);
  (0x528d13a3fc0fdd, 0x31a1c633e873ad, 0x40c9e2531ac484, 0x26f3e13350c44f);
  (0x9356f5f716d461, 0x2c4ad3b39c9bfe, 0x8193c4a6358908, 0x26f3e13350c44f);
  (0x9356f5f716d461, 0x162569d9ce4dff, 0x1967e7f4381e671, 0x3d194b0d1f124e);
  (0x71ae086c0848a, 0x556f2804bd7af, 0x5365113a522b87, 0x3eac8abe5cf0d4);
  (0x9a71d67dd758eb, 0x3a0901e0a9aed5, 0x8c3c1570564fd7, 0x34b20f605dd726);
  (0x134e3acfbaeb1d6, 0x3a0901e0a9aed5, 0x8c3c1570564fd7, 0x1a5907b02eeb93);
  (0x21bb1e4f11ad33, 0x1faffa307ac342, 0x270aba8321483e, 0x24ad37df7a5019);
  (0x21bb1e4f11ad33, 0xfd7fd183d61a1, 0x6fd09355543daf, 0x348534f7b7b1ba);
  (0x43763c9e235a66, 0xfd7fd183d61a1, 0xf6bd0c919af27b, 0x39f294ac569c1f);
  (0x13a33492fbe4ce1, 0x24e548e249fee0, 0x1ed7a192335e4f6, 0x39f294ac569c1f);
  (0x1afc183f41575c, 0xfd7fd183d61a1, 0x62528735b39201, 0x39ba83a986ed58);
  (0x35f8307e82aeb8, 0xfd7fd183d61a1, 0xce42e832b8ef71, 0x3c8d3c053e39ee);
  (0x13a33492fbe4ce1, 0x2e1e9b1adc7e98, 0xce42e832b8ef71, 0x1e469e029f1cf7);
  (0x42afcc261393f3, 0x30f1537693cb2e, 0x294094d6f1c97d, 0x1e469e029f1cf7);
  (0x9530f5d3f726ed, 0x36bf47bde9028e, 0x528129ade392fa, 0x1e469e029f1cf7);
  (0x13a33492fbe4ce1, 0x39a641e1939e3e, 0xa502535bc725f4, 0x1e469e029f1cf7);
  (0x1dd69790cb07c9, 0x1b5fa3def48147, 0x2da7f5189b06d0, 0x29e28691498bb7);
  (0x3bad2f21960f92, 0x1b5fa3def48147, 0x872bbbcafc1e2b, 0x3e00b9171387c6);
  (0x775a5e432c1f24, 0x1b5fa3def48147, 0xfe861a0e283d4f, 0x3a60006a7e452a);
  (0x1ed3ad694807b97, 0x388fa41433a3dc, 0xfe861a0e283d4f, 0x1d3000353f2295);
  (0x62a55e1db34beb, 0x388fa41433a3dc, 0x393b5dd2c1a579, 0x20d0b8e1d46531);
  (0x62a55e1db34beb, 0x1c47d20a19d1ee, 0xd51c19c33696dd, 0x3d188aebee371f);
  (0x62a55e1db34beb, 0xe23e9050ce8f7, 0x1aa3833866d2dba, 0x3d188aebee371f);
  (0x13baac6c570f2f, 0xe23e9050ce8f7, 0x471813e84e1c6c, 0x32f45440beb23d);
  (0x277558d8ae1e5e, 0xe23e9050ce8f7, 0xa9bd7206016857, 0x3cd3f0acff9f88);
  (0x4eeab1b15c3cbc, 0xe23e9050ce8f7, 0x14792d568b9e1cf, 0x3ab1ca6099a1b2);
  (0x2cf80149c25b11, 0x284994c2c0bd0f, 0x21f2b06799e1ab, 0x1e69f8567fcfc4);
  (0x7be2b2fb1e97cd, 0x377e90ee00a4f1, 0x21f2b06799e1ab, 0xf34fc2b3fe7e2);
  (0x119b8165dd71145, 0x3f190f03a098e2, 0x21f2b06799e1ab, 0x79a7e159ff3f1);
  (0x15d9d772d0ad49b, 0x27270597704062, 0x1a182d7fc3e97f1, 0x2ec183ad103453);
  (0x2ac3bde953dc63, 0x17f2096c305880, 0x6ea91eb8879fb9, 0x3df67fd8501c35);
  (0x2ac3bde953dc63, 0xbf904b6182c40, 0xdd523d710f3f72, 0x3df67fd8501c35);
  (0x2ac3bde953dc63, 0x5fc825b0c1620, 0x1baa47ae21e7ee4, 0x3df67fd8501c35);
  (0x2ac3bde953dc63, 0x1dee8bc73c6ea0, 0x3edea6a13a2ebf, 0x2c00f8c72bd9d5);
  (0x2ac3bde953dc63, 0xef745e39e3750, 0xa8810b2bc839e1, 0x3af83eaaca1125);
  (0x2ac3bde953dc63, 0x77ba2f1cf1ba8, 0x1510216579073c2, 0x3af83eaaca1125);
  (0x2ac3bde953dc63, 0x256a2eb90b8a48, 0x3ad944e2d8eb13, 0x337c9bb8faf57d);
  (0x2ac3bde953dc63, 0x12b5175c85c524, 0x75b289c5b1d626, 0x337c9bb8faf57d);
  (0x2ac3bde953dc63, 0x95a8bae42e292, 0x11628d174b788af, 0x3cd727673dd80f);
  (0x2ac3bde953dc63, 0x4ad45d7217149, 0x22c51a2e96f115e, 0x3cd727673dd80f);
  (0x2ac3bde953dc63, 0x17625d33a7366d, 0x4d0d557406532a, 0x2a22100ab812eb);
  (0xcd588f3001e853, 0x382493d2d6db19, 0x77d1135d5a2f8d, 0x20c2369f2fa4ac);
  (0x19ab11e6003d0a6, 0x382493d2d6db19, 0x77d1135d5a2f8d, 0x10611b4f97d256);
  (0x52236c799a5cee, 0x382493d2d6db19, 0x25ada6e3bfd29f, 0x19c0f4bb204095);
  (0xa446d8f334b9dc, 0x382493d2d6db19, 0x77d1135d5a2f8d, 0x28f2c446fb8dd7);
  (0x1488db1e66973b8, 0x382493d2d6db19, 0x11c17ec508ee969, 0x308bac0ce93478);
  (0x41b5f061484a58, 0x382493d2d6db19, 0x15402acb6dc009, 0x12280cf53299f4);
  (0x836be0c29094b0, 0x382493d2d6db19, 0x15402acb6dc009, 0x914067a994cfa);
  (0x106d7c185212960, 0x382493d2d6db19, 0x11c17ec508ee969, 0x3cae9710238196);
  (0x20daf830a4252c0, 0x382493d2d6db19, 0x11c17ec508ee969, 0x1e574b8811c0cb);
  (0x721695f520e921, 0x3cec38de5bc233, 0x880111e2be66a, 0x48a033d4ca67d);
  (0xe097747d5b9c83, 0x3bf7317da01b46, 0x1100223c57ccd4, 0x48a033d4ca67d);
  (0x10297b8f60b362b, 0x22859bfc1cb420, 0x12497fd6ebacfd3, 0x270f9f39695a9d);
  (0x5309541a018646, 0x376d2e405374c9, 0x3a84cc49588ff7, 0x270f9f39695a9d);
  (0x8d8e20635a163d, 0x2f3e66bcde67b3, 0x75099892b11fee, 0x270f9f39695a9d);
  (0x10297b8f60b362b, 0x2b2702fb23e128, 0xea133125623fdc, 0x270f9f39695a9d);
  (0x47552b3e89697b, 0x3b8492020dfb54, 0x2ed0a36de0732c, 0x270f9f39695a9d);
  (0x47552b3e89697b, 0x1dc2490106fdaa, 0x5da146dbc0e658, 0x270f9f39695a9d);
  (0x10297b8f60b362b, 0x35f0c3b9ecd972, 0xbb428db781ccb0, 0x270f9f39695a9d);
  (0x10297b8f60b362b, 0x1af861dcf66cb9, 0x176851b6f039960, 0x270f9f39695a9d);
  (0x777adc64e12585, 0x3e4e79261e8c45, 0x172f7a1831ad71, 0xc173d5c72ede4);
  (0xeef5b8c9c24b0a, 0x3e4e79261e8c45, 0x172f7a1831ad71, 0x60b9eae3976f2);
  (0x1ddeb7193849614, 0x3e4e79261e8c45, 0x172f7a1831ad71, 0x305cf571cbb79);
  (0x4d091b708c6010, 0x32373bc9ab9e61, 0x172f7a1831ad71, 0xf1d0cb38fa95d);
  (0xc0f67de984c345, 0x3ee43da5bcf699, 0x2e5ef430635ae2, 0xf1d0cb38fa95d);
  (0xef557219e81e27, 0x2700a52ca64ffb, 0x14c135a7aaed3eb, 0x361db1e035f958);
  (0x1d5181f1d37b47, 0x17e3987916a69e, 0x3f6c666ef33a7d, 0x33ada708b7a833);
  (0x1d5181f1d37b47, 0xbf1cc3c8b534f, 0x9c2a4ecfb9f041, 0x3f9f734542fb82);
  (0x3aa303e3a6f68e, 0xbf1cc3c8b534f, 0x11170569707dd5d, 0x37b3521bb8245f);
  (0x2369f6a094aae23, 0x39b627a5386275, 0x1c1596241fcc107, 0x2dc45b68ad0f26);
  (0x177467f4a92f6c, 0xbf1cc3c8b534f, 0x78fbb2e0bc291f, 0x3d9c9dbbc2bd6c);
  (0x2ee8cfe9525ed8, 0xbf1cc3c8b534f, 0xd6cd52b360e6cf, 0x36b1e756f80554);
  (0x1f042322b4f1fdf, 0x3f2e58611dfc97, 0x192709258aa622f, 0x333c8c2492a948);
  (0x12c3865d5425f0, 0xbf1cc3c8b534f, 0x5374a62613dd3f, 0x35202cb19cc629);
  (0x25870cbaa84be0, 0xbf1cc3c8b534f, 0xb14645f8b89aef, 0x386c94f02ab35a);
  (0x4b0e19755097c0, 0xbf1cc3c8b534f, 0x1476278e359ca6f, 0x3419e2f12c004b);
  (0x4b0e19755097c0, 0x3bb8fd2eb8a08b, 0x32774649350a23, 0x282816b4a0acfc);
  (0x961c32eaa12f80, 0x3bb8fd2eb8a08b, 0x32774649350a23, 0x14140b5a50567e);
  (0x12c3865d5425f00, 0x3bb8fd2eb8a08b, 0x32774649350a23, 0xa0a05ad282b3f);
  (0x39fbe142aa2e58, 0x39ac69add714cf, 0xa17dadb710207, 0xa0a05ad282b3f);
  (0x80a2dd42c13c89, 0x3ff948b4f821c4, 0x142fb5b6e2040e, 0xa0a05ad282b3f);
  (0xf9c11f8c0d54dd, 0x3e1ab561f4929f, 0x285f6b6dc4081c, 0xa0a05ad282b3f);
  (0x1c39e38b0e17d69, 0x382668e1deb56d, 0x50bed6db881038, 0xa0a05ad282b3f);
  (0x4a2cad2aab7c3d, 0x2e1c6334b68a2e, 0x50bed6db881038, 0x32321c61c8d83b);
  (0x4a2cad2aab7c3d, 0x170e319a5b4517, 0xa17dadb7102070, 0x32321c61c8d83b);
  (0x18003b537129527, 0x3bae58986d53c0, 0xebaa5ae1bb9cad, 0x24a026fe120ea9);
  (0xc34dec1ca10db, 0x97c3c36a47b85, 0x4b1c21ca9a9358, 0x3a5d8ebbed7455);
  (0x88247b938ce79f, 0x34e55de691eef7, 0x6fbabe0ff8c5e9, 0x2b6921afed7372);
  (0x11048f72719cf3e, 0x34e55de691eef7, 0x6fbabe0ff8c5e9, 0x15b490d7f6b9b9);
  (0x30d37b0728436c, 0x2f6d2d11366999, 0x16588c69982795, 0x15b490d7f6b9b9);
  (0x73dd2043f0ba2b, 0x38456fcc8d4b62, 0x2cb118d3304f2a, 0x15b490d7f6b9b9);
  (0xcd3f51ea51587f, 0x31d748be3d5f6a, 0x596231a6609e54, 0x15b490d7f6b9b9);
  (0x18003b537129527, 0x2ea0353715696e, 0xb2c4634cc13ca8, 0x15b490d7f6b9b9);
  (0x61fcafef7700e7, 0x3b7c8353b5415e, 0x23c0e0a8f37288, 0x15b490d7f6b9b9);
  (0xa97e71415de5f7, 0x3372d281d15a68, 0x4781c151e6e510, 0x15b490d7f6b9b9);
  (0x13881f3e52bb017, 0x2f6dfa18df66ed, 0x8f0382a3cdca20, 0x15b490d7f6b9b9);
  (0x3e8063faa2566b, 0x2f6dfa18df66ed, 0x50831ea92b73b5, 0x3d18da1ef239b0);
  (0x7d00c7f544acd6, 0x2f6dfa18df66ed, 0x50831ea92b73b5, 0x1e8c6d0f791cd8);
  (0xfa018fea8959ac, 0x2f6dfa18df66ed, 0x14a84ae93b4cd61, 0x3eb430a09bf559);
  (0x33b1f3f85011a5, 0x3109509a892296, 0x421a8950bdc2ad, 0x3eb430a09bf559);
  (0x33b1f3f85011a5, 0x1884a84d44914b, 0x843512a17b855a, 0x3eb430a09bf559);
  (0xb7e70699cb96ff, 0x2b9c6c76f04352, 0x1086a2542f70ab4, 0x3eb430a09bf559);
  (0xb7e70699cb96ff, 0x15ce363b7821a9, 0x210d44a85ee1568, 0x3eb430a09bf559);
  (0x4e22f7b23592b7, 0x2e52de88bcb2f4, 0x69c40ee7960448, 0x3eb430a09bf559);
  (0x4e22f7b23592b7, 0x17296f445e597a, 0xd3881dcf2c0890, 0x3eb430a09bf559);
  (0x4e22f7b23592b7, 0xb94b7a22f2cbd, 0x1a7103b9e581120, 0x3eb430a09bf559);
  (0x4e22f7b23592b7, 0x39e7962aebdfb1, 0x355ba8d862958a, 0x278ac15c3d9bdf);
  (0x837ea08a982841, 0x30b92bc394bdc8, 0x6ab751b0c52b14, 0x278ac15c3d9bdf);
  (0x837ea08a982841, 0x185c95e1ca5ee4, 0x158ed43ec227e69, 0x3fe7573e07fac3);
  (0x41f1d1783cd055, 0x3d163f7f26e688, 0x106333c496d5fb, 0xf2e2b7a733cfb);
  (0x837ea08a982841, 0x3ce776b479ed3a, 0x20c667892dabf6, 0xf2e2b7a733cfb);
  (0x837ea08a982841, 0x1e73bb5a3cf69d, 0xc50b6f9cf3802d, 0x2da1e6d4b03398);
  (0x106fd4115305082, 0x1e73bb5a3cf69d, 0x1cc08b0b223d0af, 0x3544aec4951069);
  (0x4ef9c73455303c, 0x2db94b3a06b03f, 0x5c01bcf06d9023, 0x3544aec4951069);
  (0xaafb8424c2c05f, 0x317efcff4de054, 0xb80379e0db2046, 0x3544aec4951069);
  (0xaafb8424c2c05f, 0x18bf7e7fa6f02a, 0x17006f3c1b6408c, 0x3544aec4951069);
  (0x22324da0f3c013, 0x18bf7e7fa6f02a, 0x3c423919247fe1, 0x2b9bf75a0ae093);
  (0x22324da0f3c013, 0xc5fbf3fd37815, 0x9ab6bfd33cbfd5, 0x37fbb699de58a8);
  (0x44649b41e78026, 0xc5fbf3fd37815, 0x1237ff6570bc021, 0x34bd59cc961c7e);
  (0xdadb8a6c7e66e, 0xc5fbf3fd37815, 0x3af6b343c572d3, 0x35570dc1e39511);
  (0x1b5b714d8fccdc, 0xc5fbf3fd37815, 0x7f5b4e85acf2f9, 0x399ae5008276bd);
  (0x36b6e29b1f99b8, 0xc5fbf3fd37815, 0x1082485097bf345, 0x3bbcd09fd1e793);
  (0x6d6dc5363f3370, 0xc5fbf3fd37815, 0x219b6f21119f3dd, 0x3ccdc66f799ffe);
  (0x15e2c10ad970b0, 0xc5fbf3fd37815, 0x63ffdd381d261d, 0x3889ef30dabe52);
  (0x2bc58215b2e160, 0xc5fbf3fd37815, 0xbb8ae16382e8dd, 0x35047618144f53);
  (0x578b042b65c2c0, 0xc5fbf3fd37815, 0x196666bd0014fbd, 0x3971992b9ad3de);
  (0x11823408adf3c0, 0xc5fbf3fd37815, 0x49bc8f2b18387d, 0x341ccc1d5439c7);
  (0x230468115be780, 0xc5fbf3fd37815, 0xa14793567dfb3d, 0x38fdc42e3ac918);
  (0x4608d022b7cf00, 0xc5fbf3fd37815, 0x12d59339bed993d, 0x353e6096c454b6);
  (0xe01c33a24c300, 0xc5fbf3fd37815, 0x3f3b3cbf7ca63d, 0x37dc2fb4caae29);
  (0x1c038674498600, 0xc5fbf3fd37815, 0x85440ce234753d, 0x3add75f9f60349);
  (0x38070ce8930c00, 0xc5fbf3fd37815, 0x11155ad27a4133d, 0x3c5e191c8badd9);
  (0x700e19d1261800, 0xc5fbf3fd37815, 0x22978edb2834f3d, 0x3d1e6aadd68321);
  (0x700e19d1261800, 0x3ddebc3f215869, 0x41df5869a49fd9, 0x245eec2e2f92f7);
  (0xe01c33a24c3000, 0x3ddebc3f215869, 0xb1ed723acab7d9, 0x311ed436a875b0);
  (0x1c0386744986000, 0x3ddebc3f215869, 0xb1ed723acab7d9, 0x188f6a1b543ad8);
  (0x360efdcec2bb3b, 0x254f5223cd1d91, 0x45cf769d454163, 0x302e6e410aeb16);
  (0x6c1dfb9d857676, 0x254f5223cd1d91, 0xb1ed723acab7d9, 0x3d66894452931c);
  (0xd83bf73b0aecec, 0x254f5223cd1d91, 0xb1ed723acab7d9, 0x1eb344a229498e);
  (0x7a94dccd9a437, 0x69c0d81a3d403, 0x46ab3106e3bcd7, 0x3cf79a13d8d79c);
  (0xf529b99b3486e, 0x69c0d81a3d403, 0x93483b076426fd, 0x3f8810921f8fdd);
  (0xc1400dd47e0047, 0x29ae1c8b8585f3, 0xa29ad6a1176f6b, 0x23120f09e1b1f0);
  (0x2251af24a136ff9, 0x3b372410765eeb, 0xa29ad6a1176f6b, 0x11890784f0d8f8);
  (0x6dd23075371665, 0x3b372410765eeb, 0x34c8a62be05906, 0x1c7601883ddded);
  (0xdba460ea6e2cca, 0x3b372410765eeb, 0xa29ad6a1176f6b, 0x2bd692cc5a1e6c);
  (0x1b748c1d4dc5994, 0x3b372410765eeb, 0xa29ad6a1176f6b, 0x15eb49662d0f36);
  (0x4e26998e16e0fb, 0x34ac6bee659034, 0x2a3a1e89804738, 0x1c7601883ddded);
  (0x4e26998e16e0fb, 0x1a5635f732c81a, 0xa29ad6a1176f6b, 0x36cc377f70a607);
  (0x4e26998e16e0fb, 0xd2b1afb99640d, 0x14535ad422eded6, 0x36cc377f70a607);
  (0x3bffd3094e6e9a, 0x328ca05d5a7a61, 0x1226c684c87261, 0xf4ae68ca479e0);
  (0x8a266c97654f95, 0x3a3213a3acb751, 0x1226c684c87261, 0x7a57346523cf0);
  (0x126739fb393118b, 0x3e04cd46d5d5c9, 0x1226c684c87261, 0x3d2b9a3291e78);
  (0x25f0e05ebee9577, 0x3fee2a186a6505, 0x1226c684c87261, 0x1e95cd1948f3c);
  (0x75c7d97b07a09e, 0x3e04cd46d5d5c9, 0x1226c684c87261, 0x98ed017e6cc2c);
  (0xeb8fb2f60f413c, 0x3e04cd46d5d5c9, 0x1226c684c87261, 0x4c7680bf36616);
  (0x1d71f65ec1e8278, 0x3e04cd46d5d5c9, 0x1226c684c87261, 0x263b405f9b30b);
  (0x56f6c4fa1c52be, 0x393d653ae26fb3, 0x1226c684c87261, 0xbf2841de07f37);
  (0x691d8b7ee4c51f, 0x2297f4ac617775, 0x8d6b188875a9e1, 0x2e8a78ca41f6ac);
  (0x15fa62f863f341f, 0x39dd31118272cb, 0x8d6b188875a9e1, 0x17453c6520fb56);
  (0x2a0bd165f51ba6, 0x2297f4ac617775, 0x395375bc8b7295, 0x2f2a44a0e1f9c4);
  (0x5417a2cbea374c, 0x2297f4ac617775, 0x8d6b188875a9e1, 0x3a2d16fcd27457);
  (0xa82f4597d46e98, 0x2297f4ac617775, 0xe182bb545fe12d, 0x2e6285d499f5e6);
  (0x231e1468408be5d, 0x39c93796ae7268, 0xe182bb545fe12d, 0x173142ea4cfaf3);
  (0x597212356391d7, 0x2dfea66e75f3f7, 0x4408548f7e27ab, 0x22fbd412857964);
  (0xf6ec78fa454b59, 0x3f7c9077b8b0a9, 0x4408548f7e27ab, 0x117dea0942bcb2);
  (0x1edd8f1f48a96b2, 0x3f7c9077b8b0a9, 0x4408548f7e27ab, 0x8bef504a15e59);
  (0x62c4fd30e8848a, 0x3f7c9077b8b0a9, 0x4408548f7e27ab, 0x2bbac91726d7bd);
  (0xc589fa61d10914, 0x3f7c9077b8b0a9, 0xa6cd51c066ac35, 0x359bacc76fc433);
  (0x16c574c2237b549, 0x3a8c1e9f943a6e, 0x14d9aa380cd586a, 0x359bacc76fc433);
  (0x48de426d3e5775, 0x3a8c1e9f943a6e, 0x2a2199cbd3fa96, 0x21d9e566ddeb47);
  (0x48de426d3e5775, 0x1d460f4fca1d37, 0x9d217604e64ca1, 0x3f1ff4b6a8087e);
  (0x91bc84da7caeea, 0x1d460f4fca1d37, 0x12eddfadf62fb8b, 0x3cd609ab1e2176);
  (0x1237909b4f95dd4, 0x1d460f4fca1d37, 0x2525704945c595f, 0x3bb11425592df2);
  (0x3a4b68576512c4, 0x1d460f4fca1d37, 0x45b05981ceb07b, 0x22fedaeca2decb);
  (0x7496d0aeca2588, 0x1d460f4fca1d37, 0xf4929287fde8c7, 0x3d68846e009b38);
  (0xe92da15d944b10, 0x1d460f4fca1d37, 0x1ddc033e59233d7, 0x3bfa5186ca6ad3);
  (0x566f49726258ff, 0x364185e9f1a93f, 0x30ea1d4e65fb5b, 0x1eb44237004d9c);
  (0xacde92e4c4b1fe, 0x364185e9f1a93f, 0x30ea1d4e65fb5b, 0xf5a211b8026ce);
  (0x18aa74317ef5f57, 0x3dee9677b1bca6, 0x30ea1d4e65fb5b, 0x7ad108dc01367);
  (0x4525d45b81e0cc, 0x364185e9f1a93f, 0x30ea1d4e65fb5b, 0x266152c4c06103);
  (0x760ff1a9e7dc27, 0x2e516c57590521, 0x61d43a9ccbf6b6, 0x266152c4c06103);
  (0xd7e42c46b3d2dd, 0x2a595f8e0cb312, 0xc3a8753997ed6c, 0x266152c4c06103);
  (0x334585469585f3, 0x32497920a55730, 0x1f09ce3979a082, 0x1e71393227bce5);
  (0x334585469585f3, 0x1924bc9052ab98, 0x715921b988c6f7, 0x3795f5c27a687d);
  (0x334585469585f3, 0xc925e482955cc, 0xe2b24373118dee, 0x3795f5c27a687d);
  (0x334585469585f3, 0x6492f2414aae6, 0x1f8aa0c2cb8a1cf, 0x3ddf24e68f1363);
  (0x334585469585f3, 0x1f6debb467567e, 0x3bea649d46e867, 0x24ba68563c67cb);
  (0x334585469585f3, 0xfb6f5da33ab3f, 0xab1a4e812356c1, 0x34715e3070130a);
  (0x17830639b796e8d, 0x39a69acc9f6003, 0x111a5590e4e62a7, 0x29efa4f26bb4c4);
  (0x4b3ce0b8b1e2e9, 0x39a69acc9f6003, 0x2feeb6e438b9ec, 0x24ba68563c67cb);
  (0x9679c17163c5d2, 0x39a69acc9f6003, 0x7b2b979cea9cd5, 0x2f3081916de3e7);
  (0x12cf382e2c78ba4, 0x39a69acc9f6003, 0x111a5590e4e62a7, 0x346b8e2f06a1f5);
  (0x1b4e29d47928fd, 0x1a273f13fbb646, 0x2bce9aaddf3689, 0x29f574f3d525d9);
  (0x72eb5f3037960f, 0x3709147dd300fc, 0x579d355bbe6d12, 0x29f574f3d525d9);
  (0x72eb5f3037960f, 0x1b848a3ee9807e, 0xaf3a6ab77cda24, 0x29f574f3d525d9);
  (0x72eb5f3037960f, 0xdc2451f74c03f, 0x1d160349f314a57, 0x37b7ba1349e618);
  (0x2cd4014d38d867, 0x1ad5e4a9729b62, 0x46175de2febda8, 0x29f574f3d525d9);
  (0x2cd4014d38d867, 0xd6af254b94db1, 0xb902bd133653b7, 0x376067488e738a);
  (0x112aabfada80485, 0x291b25f9008776, 0xb902bd133653b7, 0x1bb033a44739c5);
  (0x34a7766366d343, 0x27668803574ab0, 0x25008c370add8b, 0x1bb033a44739c5);
  (0x7ea88ed17c8e59, 0x2f6377a5f2df1d, 0x4a01186e15bb16, 0x1bb033a44739c5);
  (0xc8a9a73f92496f, 0x2589d5a51d0c71, 0x940230dc2b762c, 0x1bb033a44739c5);
  (0x32a9d2ba31d28a, 0x2f6377a5f2df1d, 0x30ac2f10fcd1d1, 0x2d86c547b8a0de);
  (0x6553a57463a514, 0x2f6377a5f2df1d, 0x30ac2f10fcd1d1, 0x16c362a3dc506f);
  (0x95ffd4856076e5, 0x23136d24e797c6, 0xf75832a75a1a87, 0x39d6cfc8c3e835);
  (0x95ffd4856076e5, 0x1189b69273cbe3, 0x1eeb0654eb4350e, 0x39d6cfc8c3e835);
  (0x694eecc6cda686, 0x3d9034853864b3, 0x8f02e59509013, 0x539ac1168848c);
  (0xd29dd98d9b4d0c, 0x3d9034853864b3, 0x8f02e59509013, 0x29cd608b44246);
  (0x1ae2be174872a2b, 0x3ede9f899285d6, 0x8f02e59509013, 0x14e6b045a2123);
  (0x4ee23b3640fb93, 0x39a4f3782a014a, 0x8f02e59509013, 0x6881715c2a5af);
  (0x72a2f49b833bdf, 0x29e2a7e79a4c03, 0x8483514e245c05, 0x306abefd5cf1b2);
  (0xe545e9370677be, 0x29e2a7e79a4c03, 0x8483514e245c05, 0x18355f7eae78d9);
  (0x2bc1443006c3b7, 0x27f7ab0f3e2e20, 0x1a80a9dc6dac01, 0x18355f7eae78d9);
  (0x60c297e8e21bb9, 0x2c3135064d8fe9, 0x350153b8db5802, 0x18355f7eae78d9);
  (0xffc693137423bf, 0x3a68a9c12c7d3a, 0x6a02a771b6b004, 0x18355f7eae78d9);
  (0x1d3cbe1f6e183c7, 0x3569b45f44b776, 0xd4054ee36d6008, 0x18355f7eae78d9);
  (0x5628ba5d830a1f, 0x31302a683555ad, 0x2a67762d7c4668, 0x18355f7eae78d9);
  (0xd55f1ce5f7dd57, 0x3ce8247220601c, 0x54ceec5af88cd0, 0x18355f7eae78d9);
  (0x17efcf59be8f6f7, 0x36a971b7bea8e7, 0xa99dd8b5f119a0, 0x18355f7eae78d9);
  (0x2aac9f613192ab, 0x1e74123910300e, 0x544499f38df44a, 0x3c22b90747fc21);
  (0x2aac9f613192ab, 0xf3a091c881807, 0xa88933e71be894, 0x3c22b90747fc21);
  (0x55593ec2632556, 0xf3a091c881807, 0x1288f120ab0a095, 0x34e86a2e70221b);
  (0x2b1b47b3ed3fe3, 0x2673cc7cc06e0f, 0x2a3df70e75e573, 0x25ae6111e80a14);
  (0x80748676506539, 0x394afd05b47319, 0x2a3df70e75e573, 0x12d73088f4050a);
  (0x100e90ceca0ca72, 0x394afd05b47319, 0x2a3df70e75e573, 0x96b98447a0285);
  (0x2289ace51da1097, 0x3d9e137285425e, 0x547bee1cebcae6, 0x96b98447a0285);
  (0x714991bb7657eb, 0x3f28ea48360a54, 0x10e59605c8c22e, 0x96b98447a0285);
  (0xd6ab15de2ae4ff, 0x3bd73df1890cb9, 0x21cb2c0b91845c, 0x96b98447a0285);
  (0x1c3394a2f258383, 0x3ee433e86f8f2e, 0x439658172308b8, 0x96b98447a0285);
  (0x5640a1b235213b, 0x3c1bf4514f87df, 0xd847804a09b58, 0x96b98447a0285);
  (0xb4dfe9d29960a3, 0x3f068f1852ccc1, 0x1b08f0094136b0, 0x96b98447a0285);
  (0x13c0c9a00df7213, 0x371044375a6cad, 0x3611e012826d60, 0x96b98447a0285);
  (0x34655862df6757, 0x2da4abf2e06a28, 0x3611e012826d60, 0x2f19f956620c99);
  (0x34655862df6757, 0x16d255f9703514, 0x6c23c02504dac0, 0x2f19f956620c99);
  (0x34655862df6757, 0xb692afcb81a8a, 0x10cacd8ace91cd7, 0x3a8324531a2723);
  (0x34655862df6757, 0x5b4957e5c0d45, 0x21959b159d239ae, 0x3a8324531a2723);
  (0x34655862df6757, 0x1c86eb77cc4259, 0x418da98faa85aa, 0x23b0ce59a9f20f);
  (0xdebdb2b848bbaf, 0x3ca2c860875c8d, 0x75f301f289ed01, 0x201bdce8bb1a34);
  (0x1bd7b657091775e, 0x3ca2c860875c8d, 0x75f301f289ed01, 0x100dee745d8d1a);
  (0x1253acb830bcdf, 0xc78fd036eb53f, 0x514ba882287343, 0x3753ae3ef65704);
  (0x9a9a5b62eb66bf, 0x349bd126589600, 0x75f301f289ed01, 0x2822d422e9e0c1);
  (0x9a9a5b62eb66bf, 0x1a4de8932c4b00, 0xebe603e513da02, 0x2822d422e9e0c1);
  (0x1eebabe0957af3, 0x1a4de8932c4b00, 0x325ffca192f850, 0x2adab13b87a1c5);
  (0x1eebabe0957af3, 0xd26f449962580, 0x83aba523bb6b93, 0x3801a5851dc745);
  (0x1eebabe0957af3, 0x6937a24cb12c0, 0x12642f6280c5219, 0x3e951fa9e8da05);
  (0x1eebabe0957af3, 0x349bd12658960, 0x24c85ec5018a432, 0x3e951fa9e8da05);
  (0x1eebabe0957af3, 0x1070b15bfbaee0, 0x75b462766b540a, 0x3e951fa9e8da05);
  (0x1eebabe0957af3, 0x83858adfdd770, 0xeb68c4ecd6a814, 0x3e951fa9e8da05);
  (0x1eebabe0957af3, 0x41c2c56feebb8, 0x1d6d189d9ad5028, 0x3e951fa9e8da05);
  (0x1eebabe0957af3, 0x148cddb2fa9a98, 0x456d5ede44adac, 0x2e246e4ded2b25);
  (0x1eebabe0957af3, 0xa466ed97d4d4c, 0xa9c6699d1ed64b, 0x386add276a7871);
  (0x1eebabe0957af3, 0x523376cbea6a6, 0x172787f1ad32789, 0x3d8e1494291f17);
  (0x1eebabe0957af3, 0x19b0151fb9413e, 0x4a18196bc3d4b5, 0x3d8e1494291f17);
  (0x1eebabe0957af3, 0xcd80a8fdca09f, 0x943032d787a96a, 0x3d8e1494291f17);
  (0x3dd757c12af5e6, 0xcd80a8fdca09f, 0x12eca8e3a731029, 0x3ee324b1bc2119);
  (0x7baeaf8255ebcc, 0xcd80a8fdca09f, 0x263ff450049dda7, 0x3f8dacc085a21a);
  (0x1a04f802bebb6d, 0xd82929ea621a0, 0x61a9b77f97305f, 0x32b5a230a9017b);
  (0xdd586701ed1c2b, 0x3976eb7ffc124b, 0xc3536eff2e60be, 0x32b5a230a9017b);
  (0x1bab0ce03da3856, 0x3976eb7ffc124b, 0x1a0abd6011b7ce9, 0x361646d85289e3);
  (0x1a04f802bebb6d, 0x10e337464faa08, 0x4e215f9945c04c, 0x32b5a230a9017b);
  (0xb647b7354a3c05, 0x3b273dd3d0d67f, 0x9c42bf328b8098, 0x32b5a230a9017b);
  (0x1528a7667d5bc9d, 0x36ee70023cebfd, 0x138857e65170130, 0x32b5a230a9017b);
  (0x43b54ae19125b9, 0x36ee70023cebfd, 0x29b052ded26a4c, 0x21d26aea595773);
  (0x876a95c3224b72, 0x36ee70023cebfd, 0x6d659dc0639005, 0x2c606d764b21b8);
  (0x10ed52b864496e4, 0x36ee70023cebfd, 0x6d659dc0639005, 0x163036bb2590dc);
  (0x21daa570c892dc8, 0x36ee70023cebfd, 0x6d659dc0639005, 0xb181b5d92c86e);
  (0x5674250f3ab927, 0x2bd654a4aa238f, 0x6d659dc0639005, 0x377888d3ddea26);
  (0xace84a1e75724e, 0x2bd654a4aa238f, 0x6d659dc0639005, 0x1bbc4469eef513);
  (0x159d0943ceae49c, 0x2bd654a4aa238f, 0x11a4de7ded90253, 0x23c94c874c8c51);
  (0xcb3bc12d06075, 0x80d081d5d973e, 0x5bc5e2c4a35b78, 0x3a2b04ec02e0f3);
  (0xcb3bc12d06075, 0x406840eaecb9f, 0xc43f819c171765, 0x3e3188fab1ac92);
  (0x19677825a0c0ea, 0x406840eaecb9f, 0x18f7b42c91d1eb5, 0x3f4ce4f2cf3341);
  (0x19677825a0c0ea, 0x1420944969fa1b, 0x3b92ad3d520569, 0x2f32d4b81404c5);
  (0x87c915ae344827, 0x35ca48ca28f98b, 0x54fa2562f2c653, 0x21a9b480beff70);
  (0x10f922b5c68904e, 0x35ca48ca28f98b, 0x54fa2562f2c653, 0x10d4da405f7fb8);
  (0x39a4614ffe8f87, 0x391602d33373ee, 0xdaae2097a1b66, 0xd892037550555);
  (0x39a4614ffe8f87, 0x1c8b016999b9f7, 0x54fa2562f2c653, 0x2a1421a0eebf4c);
  (0xc842e802efe561, 0x3195123a11199d, 0x54fa2562f2c653, 0x150a10d0775fa6);
  (0x1e57ff568d29115, 0x3c1a1aa24cc970, 0x54fa2562f2c653, 0xa8508683bafd3);
  (0x501ac3345ff55a, 0x3195123a11199d, 0x54fa2562f2c653, 0x34992a092a6f1f);
  (0xa0358668bfeab4, 0x3195123a11199d, 0xa514e89752bbad, 0x33171e219dc45e);
  (0x1406b0cd17fd568, 0x3195123a11199d, 0xa514e89752bbad, 0x198b8f10cee22f);
  (0x384998ac2ea920, 0x2b8ce29bde6e99, 0x21042e84aa2589, 0x198b8f10cee22f);
  (0x9b56243a2d19bb, 0x3c17c7e7258a93, 0x42085d09544b12, 0x198b8f10cee22f);
  (0xdd5e81438164cd, 0x2ad1ab7bfa3661, 0x8410ba12a89624, 0x198b8f10cee22f);
  (0x2c4619da4d1429, 0x2ad1ab7bfa3661, 0x2b84865e0e6dd2, 0x2a16745c15fe29);
  (0x588c33b49a2852, 0x2ad1ab7bfa3661, 0x57caa0385b81fb, 0x2a740fec081a45);
  (0xb11867693450a4, 0x2ad1ab7bfa3661, 0xb056d3ecf5aa4d, 0x2aa2ddb4012853);
  (0x1616f3b5629faf1, 0x2aba4497fdaf5a, 0x160ada7d9eb549a, 0x2aa2ddb4012853);
  (0x46d68fc3ae86a8, 0x2ad1ab7bfa3661, 0x4614fc476fe051, 0x2a5ca9080b933e);
  (0x8dad1f875d0d50, 0x2ad1ab7bfa3661, 0x4614fc476fe051, 0x152e548405c99f);
  (0xd3c21bcecceda1, 0x20000000000000, 0x15fec145dacae43, 0x352e548405c99f);
  (0x2a5a058fc295ed, 0x20000000000000, 0x3775ed6f5a94c8, 0x29e7a6941cf01b);
  (0x2a5a058fc295ed, 0x10000000000000, 0x9945e06e77bf7d, 0x39e7a6941cf01b);
  (0x2a5a058fc295ed, 0x8000000000000, 0x1328bc0dcef7efa, 0x39e7a6941cf01b);
  (0x878678326eac9, 0x8000000000000, 0x3ce8070186e635, 0x398640e490b087);
  (0x878678326eac9, 0x4000000000000, 0x8248758634b733, 0x3d8640e490b087);
  (0x878678326eac9, 0x2000000000000, 0x10d09528f90592f, 0x3f8640e490b087);
  (0x878678326eac9, 0x1000000000000, 0x21a12a51f20b25e, 0x3f8640e490b087);
  (0x1b1ae4d6e2ef5, 0x1000000000000, 0x6bc7b44bce1b48, 0x3f9f4476d372a3);
  (0x1b1ae4d6e2ef5, 0x800000000000, 0xd78f68979c3690, 0x3f9f4476d372a3);
  (0x1b1ae4d6e2ef5, 0x400000000000, 0x1b0d07f7ca69c15, 0x3fdf4476d372a3);
  (0x56bc75e2d631, 0x400000000000, 0x568c20dd138477, 0x3fdc5652213d2f);
  (0x56bc75e2d631, 0x200000000000, 0xad6efe3009df1f, 0x3ffc5652213d2f);
  (0x56bc75e2d631, 0x100000000000, 0x15addfc6013be3e, 0x3ffc5652213d2f);
  (0x1158e460913d, 0x100000000000, 0x45610f3b607f7b, 0x3ffdaf9aa631eb);
  (0x1158e460913d, 0x80000000000, 0x8ac21e76c0fef6, 0x3ffdaf9aa631eb);
  (0x1158e460913d, 0x40000000000, 0x115843ced81fdec, 0x3ffdaf9aa631eb);
  (0x1158e460913d, 0x20000000000, 0x22b19d2bf648d15, 0x3fffaf9aa631eb);
  (0x3782dace9d9, 0x20000000000, 0x6f02fc4a780d15, 0x3ffe6e053ef997);
  (0x3782dace9d9, 0x10000000000, 0xde0970c29d0403, 0x3fff6e053ef997);
  (0x3782dace9d9, 0x8000000000, 0x1bc1659b2e6f1df, 0x3fffee053ef997);
  (0xb1a2bc2ec5, 0x8000000000, 0x58d0e1555cf1df, 0x3fffa61a3adff3);
  (0xb1a2bc2ec5, 0x4000000000, 0xb1a2744d761283, 0x3fffe61a3adff3);
  (0xb1a2bc2ec5, 0x2000000000, 0x16344e89aec2506, 0x3fffe61a3adff3);
  (0x2386f26fc1, 0x2000000000, 0x470de338ade40a, 0x3ffffe83265fbf);
  (0x2386f26fc1, 0x1000000000, 0x8e1bc6715bc814, 0x3ffffe83265fbf);
  (0x2386f26fc1, 0x800000000, 0x11c378ce2b79028, 0x3ffffe83265fbf);
  (0x2386f26fc1, 0x400000000, 0x2386f19c56f2050, 0x3ffffe83265fbf);
  (0x71afd498d, 0x400000000, 0x71afce7d2c69dd, 0x3ffffc8fbfdebb);
  (0x71afd498d, 0x200000000, 0xe35fa415561d47, 0x3ffffe8fbfdebb);
  (0x71afd498d, 0x100000000, 0x1c6bf4f45a9841b, 0x3fffff8fbfdebb);
  (0x16bcc41e9, 0x100000000, 0x5af310344207ed, 0x3fffffcebf59a7);
  (0x16bcc41e9, 0x80000000, 0xb5e62068840fda, 0x3fffffcebf59a7);
  (0x16bcc41e9, 0x40000000, 0x16bcc40d1081fb4, 0x3fffffcebf59a7);
  (0x48c27395, 0x40000000, 0x48c273574f7a73, 0x3fffffc9bcc043);
  (0x48c27395, 0x20000000, 0x9184e6f761687b, 0x3fffffe9bcc043);
  (0x48c27395, 0x10000000, 0x12309ce3785448b, 0x3ffffff9bcc043);
  (0x48c27395, 0x8000000, 0x246139c6f0a8916, 0x3ffffff9bcc043);
  (0xe8d4a51, 0x8000000, 0x746a527ab26809, 0x3ffffff8afc14f);
  (0xe8d4a51, 0x4000000, 0xe8d4a503f21a63, 0x3ffffffcafc14f);
  (0xe8d4a51, 0x2000000, 0x1d1a94a16717f17, 0x3ffffffeafc14f);
  (0x2e90edd, 0x2000000, 0x5d21db9f2cabae, 0x3fffffff6ec68b);
  (0x2e90edd, 0x1000000, 0xba43b73e59575c, 0x3fffffff6ec68b);
  (0x2e90edd, 0x800000, 0x174876e7f9bbd95, 0x3fffffffeec68b);
  (0x9502f9, 0x800000, 0x4a817c7f9bbd95, 0x3fffffffa9e0b7);
  (0x9502f9, 0x400000, 0x9502f8ffcc7e23, 0x3fffffffe9e0b7);
  (0x9502f9, 0x200000, 0x12a05f1ff98fc46, 0x3fffffffe9e0b7);
  (0x9502f9, 0x100000, 0x2540be3ffc6fb85, 0x3ffffffff9e0b7);
  (0x1dcd65, 0x100000, 0x773593ffe4c8ea, 0x3ffffffff16393);
  (0x1dcd65, 0x80000, 0xee6b27ffe75f39, 0x3ffffffff96393);
  (0x1dcd65, 0x40000, 0x1dcd64fffec8bd7, 0x3ffffffffd6393);
  (0x5f5e1, 0x40000, 0x5f5e0ffffe6d7a, 0x3ffffffffef1df);
  (0x5f5e1, 0x20000, 0xbebc1ffffcdaf4, 0x3ffffffffef1df);
  (0x5f5e1, 0x10000, 0x17d783fffffabc9, 0x3ffffffffff1df);
  (0x1312d, 0x10000, 0x4c4b3fffffabc9, 0x3fffffffffb95b);
  (0x1312d, 0x8000, 0x98967fffff5792, 0x3fffffffffb95b);
  (0x1312d, 0x4000, 0x1312cffffffe051, 0x3ffffffffff95b);
  (0x1312d, 0x2000, 0x26259ffffffc0a2, 0x3ffffffffff95b);
  (0x3d09, 0x2000, 0x7a11fffffffdab, 0x3ffffffffffec7);
  (0x3d09, 0x1000, 0xf423fffffffb56, 0x3ffffffffffec7);
  (0x3d09, 0x800, 0x1e847fffffff6ac, 0x3ffffffffffec7);
  (0xc35, 0x800, 0x61a7fffffff6ac, 0x3ffffffffff9e3);
  (0xc35, 0x400, 0xc34ffffffff98d, 0x3ffffffffffde3);
  (0xc35, 0x200, 0x1869fffffffff4f, 0x3fffffffffffe3);
  (0x271, 0x200, 0x4e1fffffffff4f, 0x3fffffffffff6f);
  (0x271, 0x100, 0x9c3ffffffffe9e, 0x3fffffffffff6f);
  (0x271, 0x80, 0x1387fffffffffad, 0x3fffffffffffef);
  (0x271, 0x40, 0x270ffffffffff5a, 0x3fffffffffffef);
  (0x7d, 0x40, 0x7cffffffffffd7, 0x3fffffffffffeb);
  (0x7d, 0x20, 0xf9ffffffffffae, 0x3fffffffffffeb);
  (0x7d, 0x10, 0x1f3ffffffffffd9, 0x3ffffffffffffb);
  (0x19, 0x10, 0x63fffffffffff2, 0x3ffffffffffff7);
  (0x19, 0x8, 0xc7fffffffffffd, 0x3fffffffffffff);
  (0x19, 0x4, 0x18ffffffffffffa, 0x3fffffffffffff);
  (0x5, 0x4, 0x4fffffffffffff, 0x3fffffffffffff);
  (0x5, 0x2, 0x9ffffffffffffe, 0x3fffffffffffff);
  (0x5, 0x1, 0x13ffffffffffffc, 0x3fffffffffffff);
  (0x1, 0x1, 0x40000000000000, 0x3fffffffffffff);
  (0x2, 0x1, 0x7fffffffffffff, 0x3fffffffffffff);
  (0x4, 0x1, 0xfffffffffffffd, 0x3fffffffffffff);
  (0x8, 0x1, 0x1fffffffffffff9, 0x3fffffffffffff);
  (0x8, 0x5, 0x66666666666665, 0x3fffffffffffff);
  (0x10, 0x5, 0xccccccccccccbd, 0x3ffffffffffffb);
  (0x20, 0x5, 0x19999999999998d, 0x3ffffffffffffe);
  (0x20, 0x19, 0x51eb851eb851e9, 0x3ffffffffffffe);
  (0x40, 0x19, 0xa3d70a3d70a3a9, 0x3fffffffffffee);
  (0x80, 0x19, 0x147ae147ae147a9, 0x3fffffffffffff);
  (0x80, 0x7d, 0x4189374bc6a7d5, 0x3fffffffffffe6);
  (0x100, 0x7d, 0x83126e978d4fd5, 0x3ffffffffffffb);
  (0x200, 0x7d, 0x10624dd2f1a9ed5, 0x3fffffffffffc7);
  (0x400, 0x7d, 0x20c49ba5e353cd5, 0x3fffffffffffad);
  (0x400, 0x271, 0x68db8bac710a91, 0x3ffffffffffeb3);
  (0x800, 0x271, 0xd1b71758e21691, 0x3fffffffffff23);
  (0x1000, 0x271, 0x1a36e2eb1c42e91, 0x3fffffffffff5b);
  (0x1000, 0xc35, 0x53e2d6238d961d, 0x3ffffffffff597);
  (0x2000, 0xc35, 0xa7c5ac471b461d, 0x3fffffffffff77);
  (0x4000, 0xc35, 0x14f8b588e36661d, 0x3ffffffffff832);
  (0x4000, 0x3d09, 0x431bde82d7a139, 0x3fffffffffebfd);
  (0x8000, 0x3d09, 0x8637bd05af6139, 0x3ffffffffffaaa);
  (0x10000, 0x3d09, 0x10c6f7a0b5e6139, 0x3fffffffffe37c);
  (0x20000, 0x3d09, 0x218def416bc6139, 0x3fffffffffd7e5);
  (0x20000, 0x1312d, 0x6b5fca6af146a5, 0x3fffffffff20ca);
  (0x40000, 0x1312d, 0xd6bf94d5e546a5, 0x3ffffffffff09e);
  (0x80000, 0x1312d, 0x1ad7f29abc546a5, 0x3fffffffff275b);
  (0x80000, 0x5f5e1, 0x55e63b88c10e21, 0x3fffffffff275b);
  (0x100000, 0x5f5e1, 0xabcc7711790e21, 0x3ffffffffbc7c9);
  (0x200000, 0x5f5e1, 0x15798ee22e90e21, 0x3ffffffffa1800);
  (0x200000, 0x1dcd65, 0x44b82fa08e9c6d, 0x3ffffffff4221f);
  (0x400000, 0x1dcd65, 0x89705f412e9c6d, 0x3ffffffffc3b0c);
  (0x800000, 0x1dcd65, 0x112e0be822e9c6d, 0x3ffffffff160d0);
  (0x1000000, 0x1dcd65, 0x225c17d042e9c6d, 0x3fffffffebf3b2);
  (0x1000000, 0x9502f9, 0x6df37f66d61f49, 0x3fffffffb058e8);
  (0x2000000, 0x9502f9, 0xdbe6feccd61f49, 0x3fffffff72078f);
  (0x4000000, 0x9502f9, 0x1b7cdfd9ad61f49, 0x3fffffff9d605f);
  (0x4000000, 0x2e90edd, 0x57f5ff84913975, 0x3fffffff085d66);
  (0x8000000, 0x2e90edd, 0xafebff04913975, 0x3ffffffd5f00e3);
  (0x10000000, 0x2e90edd, 0x15fd7fe0c913975, 0x3ffffffdfeda10);
  (0x10000000, 0xe8d4a51, 0x465e65ff503eb1, 0x3ffffffb15cb33);
  (0x20000000, 0xe8d4a51, 0x8cbccbef503eb1, 0x3ffffff41f12a1);
  (0x40000000, 0xe8d4a51, 0x11979980f503eb1, 0x3fffffff3100a9);
  (0x80000000, 0xe8d4a51, 0x232f32fcf503eb1, 0x3ffffff62cad5c);
  (0x80000000, 0x48c27395, 0x70970976433fbd, 0x3fffffe79f630b);
  (0x100000000, 0x48c27395, 0xe12e12f6433fbd, 0x3fffffea63de8d);
  (0x200000000, 0x48c27395, 0x1c25c25f6433fbd, 0x3fffffebc61c4e);
  (0x200000000, 0x16bcc41e9, 0x5a126d3140a659, 0x3fffff5a413524);
  (0x400000000, 0x16bcc41e9, 0xb424d93140a659, 0x3ffffeedcea6a5);
  (0x800000000, 0x16bcc41e9, 0x16849b53140a659, 0x3fffff6d7b805a);
  (0x800000000, 0x71afd498d, 0x480eb770402145, 0x3ffff9be4a78b6);
  (0x1000000000, 0x71afd498d, 0x901d7770402145, 0x3ffffd8b9f8a57);
  (0x2000000000, 0x71afd498d, 0x1203ae770402145, 0x3ffffbe4cb6e61);
  (0x4000000000, 0x71afd498d, 0x24075c770402145, 0x3ffffb11616066);
  (0x4000000000, 0x2386f26fc1, 0x734ac17cd9a041, 0x3ffffb11616066);
  (0x8000000000, 0x2386f26fc1, 0xe695417cd9a041, 0x3fffe8e4332188);
  (0x10000000000, 0x2386f26fc1, 0x1cd2a417cd9a041, 0x3fffdfcd9c0219);
  (0x10000000000, 0xb1a2bc2ec5, 0x5c3ad9e5c5200d, 0x3fff51b1d24315);
  (0x20000000000, 0xb1a2bc2ec5, 0xb875d9e5c5200d, 0x3fff5ee9ffeb3e);
  (0x40000000000, 0xb1a2bc2ec5, 0x170edd9e5c5200d, 0x3fffbe5774d6b5);
  (0x40000000000, 0x3782dace9d9, 0x49c791fac10669, 0x3ffe5b11fc792b);
  (0x80000000000, 0x3782dace9d9, 0x938b91fac10669, 0x3ffcceb1e079fa);
  (0x100000000000, 0x3782dace9d9, 0x1271b91fac10669, 0x3ffdc498a8ef4e);
  (0x200000000000, 0x3782dace9d9, 0x24e3b91fac10669, 0x3ffe3f8c0d29f8);
  (0x200000000000, 0x1158e460913d, 0x75f2506559ce15, 0x3ff05ed5598294);
  (0x400000000000, 0x1158e460913d, 0xebf2506559ce15, 0x3ff4147cb889c2);
  (0x800000000000, 0x1158e460913d, 0x1d7f2506559ce15, 0x3ff5ef50680d59);
  (0x800000000000, 0x56bc75e2d631, 0x5e63a9addec2d1, 0x3ff5ef50680d59);
  (0x1000000000000, 0x56bc75e2d631, 0xbce3a9addec2d1, 0x3fff892c7017c3);
  (0x2000000000000, 0x56bc75e2d631, 0x177e3a9addec2d1, 0x3fad99a49146c7);
  (0x2000000000000, 0x1b1ae4d6e2ef5, 0x4a60bb892c8d5d, 0x3f0020b8cb9a65);
  (0x4000000000000, 0x1b1ae4d6e2ef5, 0x9460bb892c8d5d, 0x3ed728f4dc31e7);
  (0x8000000000000, 0x1b1ae4d6e2ef5, 0x12860bb892c8d5d, 0x3ec2ad12e47da8);
  (0x10000000000000, 0x1b1ae4d6e2ef5, 0x25860bb892c8d5d, 0x3f9146489fbb03);
  (0x10000000000000, 0x878678326eac9, 0x6e79bf1b6f4f79, 0x3a7c3b60552e24);
  (0x20000000000000, 0x878678326eac9, 0xee79bf1b6f4f79, 0x3f1fbbbcc64236);
  (0x40000000000000, 0x878678326eac9, 0x1ae79bf1b6f4f79, 0x38f91467d7e176);
  (0x40000000000000, 0x2a5a058fc295ed, 0x5618596be30fe5, 0x38f91467d7e176);
  (0x80000000000000, 0x2a5a058fc295ed, 0x5618596be30fe5, 0x1c7c8a33ebf0bb);
  (0x100000000000000, 0x2a5a058fc295ed, 0xd618596be30fe5, 0x236b47e1d74354);
  (0x29e7a6941cf01b, 0x22a9b465989cfd, 0x2ad1ab7bfa3661, 0x236b47e1d74354);
  (0x7ea0f8a4341697, 0x345f5856843ea7, 0x2ad1ab7bfa3661, 0x11b5a3f0eba1aa);
  (0x128139cc462638f, 0x3d3a2a4efa0f7c, 0x2ad1ab7bfa3661, 0x8dad1f875d0d5);
  (0x228fda1ac3fa9d5, 0x392d8b10de7a3d, 0x55a356f7f46cc2, 0x8dad1f875d0d5);
  (0x2a16745c15fe29, 0x15c2432f0736e9, 0x55a356f7f46cc2, 0x2c4619da4d1429);
  (0x7fb9cb540a6aeb, 0x21042e84aa2589, 0xab46adefe8d984, 0x2c4619da4d1429);
  (0xff7396a814d5d6, 0x21042e84aa2589, 0x12b007943f3446f, 0x26a5242f7b9cd9);
  (0x33171e219dc45e, 0x21042e84aa2589, 0x5ea400bd7c32f7, 0x3d28fadac17a19);
  (0x662e3c433b88bc, 0x21042e84aa2589, 0x91bb1edf19f755, 0x2f1694afb5cfd1);
  (0xcc5c7886771178, 0x21042e84aa2589, 0xf7e95b22558011, 0x280d619a2ffaad);
  (0x379d41d843c4a1, 0x2cecc3c8c2cba6, 0x3195123a11199d, 0x280d619a2ffaad);
  (0x9ac7664c65f7db, 0x3e83c37e916080, 0x632a247422333a, 0x280d619a2ffaad);
  (0x9ac7664c65f7db, 0x1f41e1bf48b040, 0xc65448e8446674, 0x280d619a2ffaad);
  (0x9ac7664c65f7db, 0xfa0f0dfa45820, 0x2276ff81ceec4c3, 0x37ae5279d452cd);
  (0xd892037550555, 0x6d57104bd0db3, 0x722c05a666e7dc, 0x39a4614ffe8f87);
  (0x9ac7664c65f7db, 0x27125a2f1adc50, 0x7fb525ddbbed31, 0x203ce92a5dce9d);
  (0x9ac7664c65f7db, 0x13892d178d6e28, 0x19a31b207ddd23d, 0x33c61641eb3cc5);
  (0x5e65a97028098a, 0x3b92ad3d520569, 0x1420944969fa1b, 0xcb3bc12d06075);
  (0xc3088edf39ec11, 0x3d8aaccdb1f3d9, 0x28412892d3f436, 0xcb3bc12d06075);
  (0x186111dbe73d822, 0x3d8aaccdb1f3d9, 0xeb49b7720de047, 0x251f3470412a27);
  (0x4a451526be0f6f, 0x3a96ad75220e31, 0x101a103abb2e7c, 0xcb3bc12d06075);
  (0x9ac7664c65f7db, 0x3d0cace999f83d, 0x20342075765cf8, 0xcb3bc12d06075);
  (0xbafb86c1dc54d3, 0x24e0347e352c59, 0xfb63c7acc90ec3, 0x3193f091058cce);
  (0xba2342f33c697, 0xb78bc58946b6f, 0x406840eaecb9f0, 0x3f82ac5e11e249);
  (0x634edd78880db5, 0x30f670b3e7924b, 0x4c0a751a208087, 0x257db45b5326dc);
  (0xc69dbaf1101b6a, 0x30f670b3e7924b, 0x4c0a751a208087, 0x12beda2da9936e);
  (0x1d945eafc40b75b, 0x3a55ddcabc5c02, 0x4c0a751a208087, 0x95f6d16d4c9b7);
  (0x21d26aea595773, 0x14d8296f693526, 0x4c0a751a208087, 0x2edd217227f093);
  (0x21d26aea595773, 0xa6c14b7b49a93, 0xb9e7551e9a5881, 0x39493629dc8b26);
  (0xfd8c2af34d0767, 0x2710afcca2e026, 0xb9e7551e9a5881, 0x1ca49b14ee4593);
  (0x32b5a230a9017b, 0x2710afcca2e026, 0x21c66e8c9f5410, 0x1a04f802bebb6d);
  (0x32b5a230a9017b, 0x138857e6517013, 0x76427f49e7a99b, 0x2d8d4fe9102b80);
  (0x656b44615202f6, 0x138857e6517013, 0x14119080c8baf87, 0x3dd757c12af5e6);
  (0x25330f9202dfdb, 0x23d25fbe6c3a79, 0x403834cf4f231b, 0x3dd757c12af5e6);
  (0x4a661f2405bfb6, 0x23d25fbe6c3a79, 0x403834cf4f231b, 0x1eebabe0957af3);
  (0x8a9e53f354e2d1, 0x215f05cf80dab6, 0x8070699e9e4636, 0x1eebabe0957af3);
  (0x8a9e53f354e2d1, 0x10af82e7c06d5b, 0x18b7f2730916f3d, 0x2f9b2ec855e84e);
  (0x573e29b3e26055, 0x3481e2a62ca7d4, 0x33602a3f72827c, 0x1eebabe0957af3);
  (0xbdfe7e32c7654d, 0x392c9d33abcedd, 0x66c0547ee504f8, 0x1eebabe0957af3);
  (0x124bed2b1ac6a45, 0x2c0c248a20a4e8, 0xcd80a8fdca09f0, 0x1eebabe0957af3);
  (0x2e246e4ded2b25, 0x22b6af6f2256d6, 0x2919bb65f53530, 0x1eebabe0957af3);
  (0x8057e519d79585, 0x3047039826a65e, 0x523376cbea6a60, 0x1eebabe0957af3);
  (0x124bed2b1ac6a45, 0x370f2daca8ce22, 0xa466ed97d4d4c0, 0x1eebabe0957af3);
  (0x3e951fa9e8da05, 0x3ada313b35aa05, 0x20e162b7f75dc0, 0x1eebabe0957af3);
  (0x5f768261e037c5, 0x2ce2ee8de5927c, 0x41c2c56feebb80, 0x1eebabe0957af3);
  (0xe2fc0d41bdaec5, 0x355d2327884431, 0x83858adfdd7700, 0x1eebabe0957af3);
  (0x1c5f81a837b5d8a, 0x355d2327884431, 0x1668198219b25c5, 0x2a2467840edf92);
  (0x5f768261e037c5, 0x381baa315ef71b, 0x349bd126589600, 0x1eebabe0957af3);
  (0x9412538838cdc5, 0x2b83ab08fa3907, 0x6937a24cb12c00, 0x1eebabe0957af3);
  (0xfd49f5d4e9f9c5, 0x2537ab74c7d9fd, 0xd26f4499625800, 0x1eebabe0957af3);
  (0x43ccab42650c43, 0x31cfaa9d2c9811, 0x18f1fa06dd6a7e, 0x1253acb830bcdf);
  (0x87995684ca1886, 0x31cfaa9d2c9811, 0x5cbea5494276c1, 0x2211abaaaeaa78);
  (0x10f32ad0994310c, 0x31cfaa9d2c9811, 0x5cbea5494276c1, 0x1108d5d557553c);
  (0x23b0ce59a9f20f, 0x20c6d4c7d542d5, 0x390dd6ef9884b2, 0x34655862df6757);
  (0x47619cb353e41e, 0x20c6d4c7d542d5, 0x5cbea5494276c1, 0x2a9616955a5516);
  (0xeb81deafea3efd, 0x3611e012826d60, 0x5cbea5494276c1, 0x154b0b4aad2a8b);
  (0x1a4ff29426f2c7f, 0x3053fb53ee613b, 0xb97d4a9284ed82, 0x154b0b4aad2a8b);
  (0x2f19f956620c99, 0x1b08f0094136b0, 0x5b4957e5c0d450, 0x34655862df6757);
  (0x2f19f956620c99, 0xd847804a09b58, 0xb692afcb81a8a0, 0x34655862df6757);
  (0x2f19f956620c99, 0x6c23c02504dac, 0x19c3f58ed655dd9, 0x3b2794652fb503);
  (0x96b98447a0285, 0x6c23c02504dac, 0x52898790b705aa, 0x3b37b1a8f3ea8b);
  (0x96b98447a0285, 0x3611e012826d6, 0xae7ea765e80dd9, 0x3e98cfaa1c1161);
  (0x96b98447a0285, 0x1b08f0094136b, 0x15cfd4ecbd01bb2, 0x3e98cfaa1c1161);
  (0x96b98447a0285, 0x872cb02e46117, 0x45cc42f590058a, 0x3e98cfaa1c1161);
  (0x12d73088f4050a, 0x872cb02e46117, 0x87bd6cd4e6172d, 0x3cde2e5f2d5c81);
  (0x25ae6111e80a14, 0x872cb02e46117, 0x10b9fc093923a73, 0x3c00ddb9b60211);
  (0x4b5cc223d01428, 0x872cb02e46117, 0x213646810ea80ff, 0x3b923566fa54d9);
  (0x4b5cc223d01428, 0x2a3df70e75e573, 0x4c222d8ea87823, 0x2aac9f613192ab);
  (0x977eefb2788c4b, 0x2a754b37d3bc0f, 0x98445b1d50f046, 0x2aac9f613192ab);
  (0x12efddf64f11896, 0x2a754b37d3bc0f, 0x12fc34acfc97c91, 0x2a90f54c82a75d);
  (0x3c22b90747fc21, 0x2a224cf9c6fa25, 0x3ce8247220601c, 0x2aac9f613192ab);
  (0x790add79685c3d, 0x2a67762d7c4668, 0x79d048e440c038, 0x2aac9f613192ab);
  (0x790add79685c3d, 0x1533bb16be2334, 0x16cab6f41e9dcad, 0x3fe05a77efb5df);
  (0x18355f7eae78d9, 0x1533bb16be2334, 0x31f595d30db9a8, 0x2bc1443006c3b7);
  (0x18355f7eae78d9, 0xa99dd8b5f119a, 0x7c208b24c9ec29, 0x365b21bb65d551);
  (0x18355f7eae78d9, 0x54ceec5af88cd, 0x1107675c842512b, 0x3ba81081155e1e);
  (0x306abefd5cf1b2, 0x54ceec5af88cd, 0x232f6efb86ffb57, 0x3da1a0e2a7e3dd);
  (0x306abefd5cf1b2, 0x1a80a9dc6dac01, 0x7097c98b4998ab, 0x3da1a0e2a7e3dd);
  (0x60d57dfab9e364, 0x1a80a9dc6dac01, 0xa1028888a68a5d, 0x2c11255f8ac7ef);
  (0xc1aafbf573c6c8, 0x1a80a9dc6dac01, 0x1c3830278d43489, 0x3dc9917a69e5f9);
  (0xd102e2b854b5e, 0x8f02e59509013, 0x5a4d66e4f73db5, 0x3dc9917a69e5f9);
  (0x675d95107c8913, 0x235cdfe9dd3b06, 0xb49acdc9ee7b6a, 0x3dc9917a69e5f9);
  (0x675d95107c8913, 0x11ae6ff4ee9d83, 0x169359b93dcf6d4, 0x3dc9917a69e5f9);
  (0xa735822d10918, 0x8f02e59509013, 0x48038ca8096dcb, 0x3d97a4bcb76356);
  (0x5cea3cedab7ffb, 0x27bc00b7ac41be, 0x48038ca8096dcb, 0x1ecbd25e5bb1ab);
  (0x5cea3cedab7ffb, 0x13de005bd620df, 0xecf1563dbe5b91, 0x32a9d2ba31d28a);
  (0xb9d479db56fff6, 0x13de005bd620df, 0x1a6c5d019155b87, 0x2d32e9b8ef0a24);
  (0x5b0d8a8f7141bc, 0x30ac2f10fcd1d1, 0x2f6377a5f2df1d, 0x1954e95d18e945);
  (0x8a7102356420d9, 0x25008c370add8b, 0xe937f18149df13, 0x3e55759423c6d0);
  (0x114e2046ac841b2, 0x25008c370add8b, 0xe937f18149df13, 0x1f2abaca11e368);
  (0x376067488e738a, 0x25008c370add8b, 0x4316bba79e8475, 0x2cd4014d38d867);
  (0x6ec0ce911ce714, 0x25008c370add8b, 0x7a7722f02cf7ff, 0x28ea46c221daf9);
  (0xdd819d2239ce28, 0x25008c370add8b, 0xe937f18149df13, 0x26f5697c965c42);
  (0x29f574f3d525d9, 0x230baef17f5ed4, 0x35abc952e536c4, 0x2cd4014d38d867);
  (0x29f574f3d525d9, 0x1185d778bfaf6a, 0x954d07999f9361, 0x3e59d8c5f887d1);
  (0x29f574f3d525d9, 0x8c2ebbc5fd7b5, 0x12a9a0f333f26c2, 0x3e59d8c5f887d1);
  (0x2505041de132fb1, 0x3dd725764bb6e2, 0x1fc6557f668e3ff, 0x351439b9ebdf2d);
  (0x53eae9e7aa4bb2, 0x2bce9aaddf3689, 0x441cb407d0dc1f, 0x238e62412c2fc3);
  (0x98079def7b27d1, 0x27ae7e7785b326, 0x8839680fa1b83e, 0x238e62412c2fc3);
  (0x98079def7b27d1, 0x13d73f3bc2d993, 0x1a87a6e0ebe984d, 0x3765a17cef0956);
  (0x24ba68563c67cb, 0x17f75b721c5cf6, 0x4e92cd4302583b, 0x334585469585f3);
  (0x24ba68563c67cb, 0xbfbadb90e2e7b, 0xc1e002dc411841, 0x3f4132ffa3b46e);
  (0x10b54d388b9e7d7, 0x2b9c4738e008b2, 0xc1e002dc411841, 0x1fa0997fd1da37);
  (0x4428540aa3be49, 0x3797f4f1ee372d, 0x3edbd768ceacfc, 0x334585469585f3);
  (0x8850a815477c92, 0x3797f4f1ee372d, 0x83042b73726b45, 0x356ebd1c41de90);
  (0x110a1502a8ef924, 0x3797f4f1ee372d, 0x83042b73726b45, 0x1ab75e8e20ef48);
  (0x22142a0551df248, 0x3797f4f1ee372d, 0x83042b73726b45, 0xd5baf471077a4);
  (0x1e71393227bce5, 0xf84e71cbcd041, 0x6492f2414aae60, 0x334585469585f3);
  (0xbfe69dd7c1e50f, 0x30ea1d4e65fb5b, 0x83042b73726b45, 0x21653631a92b1a);
  (0x17fcd3baf83ca1e, 0x30ea1d4e65fb5b, 0x83042b73726b45, 0x10b29b18d4958d);
  (0x4cc2a58980c206, 0x30ea1d4e65fb5b, 0x364185e9f1a93f, 0x2292ea2dc0f066);
  (0x99854b1301840c, 0x30ea1d4e65fb5b, 0x364185e9f1a93f, 0x11497516e07833);
  (0xcfc6d0fcf32d4b, 0x2119c932a339c7, 0x13c49dcd0d67fc9, 0x32633e4983b1fa);
  (0x3d68846e009b38, 0x30ea1d4e65fb5b, 0x178d43b2f15ba3, 0x12c29611fe2ed2);
  (0x7ad108dc013670, 0x30ea1d4e65fb5b, 0x925e4c8ef29213, 0x3a4b68576512c4);
  (0xf5a211b8026ce0, 0x30ea1d4e65fb5b, 0x925e4c8ef29213, 0x1d25b42bb28962);
  (0x28b7a6897ba05f, 0x288aa5561c2719, 0x1d460f4fca1d37, 0x1d25b42bb28962);
  (0x6eb55c62c15df5, 0x371d7f6bf56bca, 0x1d460f4fca1d37, 0xe92da15d944b1);
  (0xe3cd99a1e9d2d1, 0x38b473e1ad3f47, 0x3a8c1e9f943a6e, 0xe92da15d944b1);
  (0x19371f580a6821b, 0x323681119c86ad, 0x75183d3f2874dc, 0xe92da15d944b1);
  (0x21d9e566ddeb47, 0x1510cce5e9fd4b, 0x533e57d84a8995, 0x33cd7587545a2a);
  (0x96f222a6066023, 0x2ef787a9942a60, 0x533e57d84a8995, 0x19e6bac3aa2d15);
  (0x96f222a6066023, 0x177bc3d4ca1530, 0x13d6ed2569b734d, 0x31627e98744245);
  (0x17f901b694fed1, 0x12a5d5f709e566, 0x3f7c9077b8b0a9, 0x31627e98744245);
  (0x96f222a6066023, 0x3ab56993f934f8, 0x7ef920ef716152, 0x31627e98744245);
  (0x96f222a6066023, 0x1d5ab4c9fc9a7c, 0xfdf241dee2c2a4, 0x31627e98744245);
  (0x3af4d5c91a7835, 0x395375bc8b7295, 0xb02d25bf07a93, 0xab4ded2f2b516);
  (0x80ec7dee256afd, 0x3eade52604cd20, 0xb02d25bf07a93, 0x55a6f69795a8b);
  (0x96f222a6066023, 0x24b161fc7bc11b, 0xacf7c75de75549, 0x2a0bd165f51ba6);
  (0x12de4454c0cc046, 0x24b161fc7bc11b, 0x1dadc0ca9f4158f, 0x39b74aaf764eee);
  (0x5e548941c3f388, 0x395375bc8b7295, 0x2297f4ac617775, 0x1505e8b2fa8dd3);
  (0xc61c6746e859e7, 0x3c3297eabd8e07, 0x452fe958c2eeea, 0x1505e8b2fa8dd3);
  (0x195ac23513126a5, 0x3da22901d69bc0, 0x8a5fd2b185ddd4, 0x1505e8b2fa8dd3);
  (0x51226d76a36e21, 0x3da22901d69bc0, 0x393d653ae26fb3, 0x2b7b627d0e295f);
  (0x51226d76a36e21, 0x1ed11480eb4de0, 0x727aca75c4df66, 0x2b7b627d0e295f);
  (0x51226d76a36e21, 0xf688a4075a6f0, 0x1361802622d2ced, 0x3ae3ecbd83d04f);
  (0x131da02fcd9858, 0x1226c684c87261, 0x3e04cd46d5d5c9, 0x3ae3ecbd83d04f);
  (0x51226d76a36e21, 0x268559a1262158, 0x7c099a8dabab92, 0x3ae3ecbd83d04f);
  (0x51226d76a36e21, 0x1342acd09310ac, 0xf813351b575724, 0x3ae3ecbd83d04f);
  (0x51226d76a36e21, 0x9a15668498856, 0x1f0266a36aeae48, 0x3ae3ecbd83d04f);
  (0x51226d76a36e21, 0x3026b0096fa9ae, 0x328ca05d5a7a61, 0x1dffe984a7374d);
  (0x51226d76a36e21, 0x18135804b7d4d7, 0xb63bae315862e3, 0x361341895f0c24);
  (0xa244daed46dc42, 0x18135804b7d4d7, 0x15880891e9f3f25, 0x331cf8c9675ae9);
  (0x1c7601883ddded, 0x151d0f44c0239c, 0x4ce2d6548d427b, 0x39098a4956bd5f);
  (0x1c7601883ddded, 0xa8e87a26011ce, 0x99c5aca91a84f6, 0x39098a4956bd5f);
  (0x1c7601883ddded, 0x54743d13008e7, 0x150015ada72e7d9, 0x3e50ce1a86c646);
  (0x1c7601883ddded, 0x1a645315f02c83, 0x3d8245107101fc, 0x39098a4956bd5f);
  (0x38ec03107bbbda, 0x1a645315f02c83, 0x59f84698aedfe9, 0x29b6eeafa374f1);
  (0x92e449a92a9bc3, 0x220da0e2c9d0ba, 0xb3f08d315dbfd2, 0x29b6eeafa374f1);
  (0x92e449a92a9bc3, 0x1106d07164e85d, 0x1fac5640be61b67, 0x3abdbf21085d4e);
  (0x6b3bf89f53a3b1, 0x3e2628d06b9d2c, 0xd381b0347a806, 0x7a94dccd9a437);
  (0x85ac2ea5e2f3bd, 0x26bc62350f72cd, 0xa01c64ac7243c9, 0x2e65b001e91704);
  (0x1ab74c1f8382b43, 0x3def3a3603fe4f, 0xa01c64ac7243c9, 0x1732d800f48b82);
  (0x557dc064d808a7, 0x3def3a3603fe4f, 0x4a9ea4479a3b22, 0x360efdcec2bb3b);
  (0xaafb80c9b0114e, 0x3def3a3603fe4f, 0xa01c64ac7243c9, 0x39ff1c02635cc5);
  (0x14b17e576225517, 0x3bf72b1c33ad8a, 0x14038c958e48792, 0x39ff1c02635cc5);
  (0xadf1c1d3dcd85, 0x9d84b811193d9, 0x3ddebc3f215869, 0x38070ce8930c00);
  (0x539cf4799cf373, 0x25dbd1f55b19d9, 0x3ddebc3f215869, 0x1c038674498600);
  (0xe518a5325b3f4f, 0x33dd952f7fdcd9, 0x3ddebc3f215869, 0xe01c33a24c300);
  (0x2081006a3d7d707, 0x3ade76cc923e59, 0x3ddebc3f215869, 0x700e19d126180);
  (0x6fb85f69955c52, 0x3f3b3cbf7ca63d, 0xc5fbf3fd37815, 0x700e19d126180);
  (0xdf70bed32ab8a4, 0x3f3b3cbf7ca63d, 0xc5fbf3fd37815, 0x38070ce8930c0);
  (0x1bee17da6557148, 0x3f3b3cbf7ca63d, 0xc5fbf3fd37815, 0x1c03867449860);
  (0x4f7a19bb018364, 0x383a5b226a44bd, 0xc5fbf3fd37815, 0x8c11a0456f9e0);
  (0xab53f2b5d67edd, 0x3c9ae82495c1ad, 0xc5fbf3fd37815, 0x4608d022b7cf0);
  (0x16307a4ab8075cf, 0x3ecb2ea5ab8025, 0xc5fbf3fd37815, 0x230468115be78);
  (0x3f94e162679c50, 0x383a5b226a44bd, 0xc5fbf3fd37815, 0xaf160856cb858);
  (0x8b898204a2b0b5, 0x3db30b6520a0e9, 0xc5fbf3fd37815, 0x578b042b65c2c);
  (0x11713040945616a, 0x3db30b6520a0e9, 0xc5fbf3fd37815, 0x2bc58215b2e16);
  (0x23a85c7525e3ae9, 0x3f113775ce37f4, 0xc5fbf3fd37815, 0x15e2c10ad970b);
  (0x6aae1b83c72a22, 0x3af6b343c572d3, 0xc5fbf3fd37815, 0x6d6dc5363f337);
  (0xda0bd4c23662df, 0x3c423919247fe1, 0x18bf7e7fa6f02a, 0x6d6dc5363f337);
  (0x1b8c7473f14d459, 0x3ce7fc03d40668, 0x317efcff4de054, 0x6d6dc5363f337);
  (0x445b75d9b1d0bd, 0x2f3a435d0c1ffa, 0x317efcff4de054, 0x22324da0f3c013);
  (0xa7596fd84d9165, 0x39cf6f4f79d010, 0x62fdf9fe9bc0a8, 0x22324da0f3c013);
  (0xa7596fd84d9165, 0x1ce7b7a7bce808, 0x16d5563d58512b5, 0x3f1a0548b0a81b);
  (0x3cd0124f237093, 0x3484d95642f805, 0x2db94b3a06b03f, 0x277ce39a2a981e);
  (0x79a0249e46e126, 0x3484d95642f805, 0x2db94b3a06b03f, 0x13be71cd154c0f);
  (0xa7596fd84d9165, 0x2421a591ac220a, 0x102cc064c5af1e3, 0x37e0175ec16e19);
  (0xa7596fd84d9165, 0x1210d2c8d61105, 0x205980c98b5e3c6, 0x37e0175ec16e19);
  (0x1e5c56f4e679f6, 0x106333c496d5fb, 0x6aa0c1ee809d79, 0x398db66300a923);
  (0x88fd18e367176f, 0x24f87513cbbf8f, 0xd54183dd013af2, 0x398db66300a923);
  (0x111fa31c6ce2ede, 0x24f87513cbbf8f, 0x15e3e9cc0685261, 0x2f4315bb663459);
  (0x278ac15c3d9bdf, 0x1aadd46c314ac5, 0x4c446af99a2383, 0x337523460447f2);
  (0x4f1582b87b37be, 0x1aadd46c314ac5, 0x9b59edb2155b41, 0x3468660f336ebe);
  (0x13984f3230bcabd, 0x34e20773cb0224, 0x9b59edb2155b41, 0x1a34330799b75f);
  (0x3eb430a09bf559, 0x34e20773cb0224, 0x1df18c70dd708f, 0x1940f03e6a9093);
  (0x3eb430a09bf559, 0x1a7103b9e58112, 0x7a97498256d677, 0x33b1f3f85011a5);
  (0x3eb430a09bf559, 0xd3881dcf2c089, 0xf52e9304adacee, 0x33b1f3f85011a5);
  (0x7d68614137eab2, 0xd3881dcf2c089, 0x22eb38627b977ab, 0x3ae63ea486ea29);
  (0xdaae00612d2c3, 0x7344aac36d884, 0x6fbd813b2517ef, 0x3ae63ea486ea29);
  (0xdaae00612d2c3, 0x39a25561b6c42, 0xed25e27c5d02a1, 0x3e8063faa2566b);
  (0xdaae00612d2c3, 0x1cd12ab0db621, 0x1da4bc4f8ba0542, 0x3e8063faa2566b);
  (0xdaae00612d2c3, 0x9015d57448ea5, 0x5edbf431becdda, 0x3e8063faa2566b);
  (0x6c86d437d1a09d, 0x23c0e0a8f37288, 0xbdb7e8637d9bb4, 0x3e8063faa2566b);
  (0x6c86d437d1a09d, 0x11e0705479b944, 0x17b6fd0c6fb3768, 0x3e8063faa2566b);
  (0x15b490d7f6b9b9, 0x11e0705479b944, 0x4b8fe4f77d0f4a, 0x3e3bcf46838e5f);
  (0x15b490d7f6b9b9, 0x8f0382a3cdca2, 0x971fc9eefa1e94, 0x3e3bcf46838e5f);
  (0x15b490d7f6b9b9, 0x4781c151e6e51, 0x12e3f93ddf43d28, 0x3e3bcf46838e5f);
  (0x2b6921afed7372, 0x4781c151e6e51, 0x2486aeed57bab8d, 0x3c2a9e2c87943e);
  (0x2b6921afed7372, 0x16588c69982795, 0x5ad64ec123dd0b, 0x2ec249ed2c494b);
  (0x56d2435fdae6e4, 0x16588c69982795, 0xdd11b3d0ec3761, 0x38e5f794fa6005);
  (0x1e1887df07cec0d, 0x3df7ce68e16b62, 0x133e3f730c71e45, 0x279f41ff4943cd);
  (0x604e7f967f6269, 0x3df7ce68e16b62, 0x12f8786d48f70a, 0xc34dec1ca10db);
  (0x604e7f967f6269, 0x1efbe73470b5b1, 0x863f707111507d, 0x2b30c5f63ac68c);
  (0xc09cff2cfec4d2, 0x1efbe73470b5b1, 0x146dc6f9e10154f, 0x34944a2f8e18f7);
  (0x32321c61c8d83b, 0x285f6b6dc4081c, 0x2a06aa07a43c21, 0x21cd41bce77421);
  (0x32321c61c8d83b, 0x142fb5b6e2040e, 0x863f707111507d, 0x35fcf773c9782f);
  (0x32321c61c8d83b, 0xa17dadb710207, 0x10c7ee0e222a0fa, 0x35fcf773c9782f);
  (0x646438c391b076, 0xa17dadb710207, 0x26bdda78ea08a97, 0x3e51f9b9f04330);
  (0x14140b5a50567e, 0xa17dadb710207, 0x75e88bbcc81849, 0x3b458133a81d41);
  (0x282816b4a0acfc, 0xa17dadb710207, 0xda4cc48059c8bf, 0x36de63be6e93b2);
  (0x50502d694159f8, 0xa17dadb710207, 0x1cb3d4cbc1dd6a7, 0x39b6c2718a4fee);
  (0x50502d694159f8, 0x32774649350a23, 0x3bb8fd2eb8a08b, 0x25870cbaa84be0);
  (0xa0a05ad282b3f0, 0x32774649350a23, 0x3bb8fd2eb8a08b, 0x12c3865d5425f0);
  (0x17cf9b2d3be086b, 0x3bd90977df1d1b, 0x3bb8fd2eb8a08b, 0x961c32eaa12f8);
  (0x466af4ad979265, 0x374f5c9a15a457, 0xbf1cc3c8b534f, 0x961c32eaa12f8);
  (0x98c7b597ba7819, 0x3c003e316aadd3, 0xbf1cc3c8b534f, 0x4b0e19755097c);
  (0x13d81376c004381, 0x3e58aefd153291, 0xbf1cc3c8b534f, 0x25870cbaa84be);
  (0x3f803e48ccda4d, 0x3e58aefd153291, 0xbf1cc3c8b534f, 0xbba33fa5497b6);
  (0x7f007c9199b49a, 0x3e58aefd153291, 0xbf1cc3c8b534f, 0x5dd19fd2a4bdb);
  (0x10264432b9648ff, 0x3f6c666ef33a7d, 0x17e3987916a69e, 0x5dd19fd2a4bdb);
  (0x2092bd05f8f71c9, 0x3ff64227e23e73, 0x2fc730f22d4d3c, 0x5dd19fd2a4bdb);
  (0x4b913f81ce4ed1, 0x2e5ef430635ae2, 0x2fc730f22d4d3c, 0x1d5181f1d37b47);
  (0xab1fa16628e949, 0x3480fc0a0528b8, 0x5f8e61e45a9a78, 0x1d5181f1d37b47);
  (0xab1fa16628e949, 0x1a407e0502945c, 0x16a3c652ede1e39, 0x3791fff6d60fa3);
  (0x1e3a19671f52ba, 0x172f7a1831ad71, 0x50715530caf11b, 0x3db407d077dd79);
  (0x3c7432ce3ea574, 0x172f7a1831ad71, 0x6eab6e97ea43d5, 0x2a71c0f454c575);
  (0xab1fa16628e949, 0x20d09d86433973, 0xdd56dd2fd487aa, 0x2a71c0f454c575);
  (0x182e7ab8e5dbc8, 0x172f7a1831ad71, 0x32373bc9ab9e61, 0x3025b12657bc0a);
  (0x305cf571cbb790, 0x172f7a1831ad71, 0x6294313b7755f1, 0x2f4252ab5d8b76);
  (0xc34e1c1f0ec511, 0x2ed0a36de0732c, 0x6294313b7755f1, 0x17a12955aec5bb);
  (0xc34e1c1f0ec511, 0x176851b6f03996, 0x188767e95fd70f3, 0x2f097b0c9eff51);
  (0x270f9f39695a9d, 0x176851b6f03996, 0x4ff984cab29c0b, 0x2fecd987992fe5);
  (0x270f9f39695a9d, 0xbb428db781ccb, 0xc702a8cece92b3, 0x3ba10263114cb0);
  (0x4e1f3e72d2b53a, 0xbb428db781ccb, 0x1634125b473fd27, 0x3538d2e878dfee);
  (0x4e1f3e72d2b53a, 0x3a84cc49588ff7, 0x376d2e405374c9, 0x2984aa0d00c323);
  (0x9c3e7ce5a56a74, 0x3a84cc49588ff7, 0x858c6cb3262a03, 0x3204bb2b2ca98d);
  (0x1387cf9cb4ad4e8, 0x3a84cc49588ff7, 0x121cae998cb9477, 0x3644c3ba429cc2);
  (0x48a033d4ca67d, 0x440088f15f335, 0x43604add1fb68a, 0x3f162f401982a5);
  (0x914067a994cfa, 0x440088f15f335, 0x87767b749d77dd, 0x3f6b57d1316160);
  (0x12280cf53299f4, 0x440088f15f335, 0x1068ed628ffad89, 0x3d75e7d2325723);
  (0x13d06fd08977b65, 0x251b00bfba1861, 0x118b6e31e32477d, 0x20daf830a4252c);
  (0x5c74adbd3c0f01, 0x361b22fc11e535, 0x382493d2d6db19, 0x20daf830a4252c);
  (0xb8e95b7a781e02, 0x361b22fc11e535, 0x382493d2d6db19, 0x106d7c18521296);
  (0x1a9f74ac7c7171d, 0x3e51e1083aee80, 0x382493d2d6db19, 0x836be0c29094b);
  (0x3381e97640812a, 0x25ada6e3bfd29f, 0x382493d2d6db19, 0x2911b63ccd2e77);
  (0x6ba67d49175c43, 0x275fae9046808b, 0x704927a5adb632, 0x2911b63ccd2e77);
  (0xdbefa4eec51275, 0x2838b26689d781, 0xe0924f4b5b6c64, 0x2911b63ccd2e77);
  (0x2a22100ab812eb, 0x2686aaba032995, 0x2ec4ba674e6cda, 0x2ac3bde953dc63);
  (0x58e6ca72067fc5, 0x28a53451ab82fc, 0x5d8974ce9cd9b4, 0x2ac3bde953dc63);
  (0x58e6ca72067fc5, 0x14529a28d5c17e, 0x113f9b40f40332d, 0x3f165812299de1);
  (0x58e6ca72067fc5, 0xa294d146ae0bf, 0x227f3681e80665a, 0x3f165812299de1);
  (0x58e6ca72067fc5, 0x32ce81661663bb, 0x4ad45d72171490, 0x2ac3bde953dc63);
  (0xb1cd94e40cff8a, 0x32ce81661663bb, 0xa3bb27e41d9455, 0x2ec91fa7b5200f);
  (0x1639b29c819ff14, 0x32ce81661663bb, 0x15588bcc82a93df, 0x30cbd086e5c1e5);
  (0x49ef848e684875, 0x34d13245470591, 0x3bdd178e78dd40, 0x2ac3bde953dc63);
  (0x93df091cd090ea, 0x34d13245470591, 0x85cc9c1ce125b5, 0x2fca78174d70fa);
  (0x127be1239a121d4, 0x34d13245470591, 0x85cc9c1ce125b5, 0x17e53c0ba6b87d);
  (0x2604766c1fc3b5, 0x21f2b06799e1ab, 0x2fe412d860b100, 0x2ac3bde953dc63);
  (0x55e889448074b5, 0x265b372876df07, 0x5fc825b0c16200, 0x2ac3bde953dc63);
  (0xabd1128900e96a, 0x265b372876df07, 0xb5b0aef541d6b5, 0x288f7a88e55db5);
  (0x157a2251201d2d4, 0x265b372876df07, 0x16181c17e42c01f, 0x277558d8ae1e5e);
  (0x3cd3f0acff9f88, 0x21f2b06799e1ab, 0x46b38d19408cd3, 0x277558d8ae1e5e);
  (0xc05b6e733fcbe3, 0x35ad5cd3f0f0da, 0x46b38d19408cd3, 0x13baac6c570f2f);
  (0x14dc288a5c0e589, 0x2e915ad64f879c, 0x8d671a328119a6, 0x13baac6c570f2f);
  (0x4f3c264ad8842b, 0x3746b6607e1d65, 0x1c47d20a19d1ee, 0x13baac6c570f2f);
  (0xa4139c6925f9f5, 0x393b5dd2c1a579, 0x388fa41433a3dc, 0x13baac6c570f2f);
  (0x14dc288a5c0e589, 0x3a35b18be36983, 0x711f48286747b8, 0x13baac6c570f2f);
  (0x41a171c3a8ca62, 0x393b5dd2c1a579, 0x17beeb325f3eab, 0x14b5002578d339);
  (0x59605cf608090d, 0x26f82efc1d3c59, 0x88de335ac68663, 0x3bad2f21960f92);
  (0xb2c0b9ec10121a, 0x26f82efc1d3c59, 0x88de335ac68663, 0x1dd69790cb07c9);
  (0x1658173d8202434, 0x26f82efc1d3c59, 0x13b9eed46d6987d, 0x22676346742211);
  (0x60a1ce4f328e45, 0x34aa921d188b31, 0x36bf47bde9028e, 0x1dd69790cb07c9);
  (0x9761160d1b90d3, 0x294094d6f1c97d, 0x6d7e8f7bd2051c, 0x1dd69790cb07c9);
  (0x104dfa588ed95ef, 0x238b9633de68a3, 0xdafd1ef7a40a38, 0x1dd69790cb07c9);
  (0x3c8d3c053e39ee, 0x294094d6f1c97d, 0x4f37f17932e825, 0x35f8307e82aeb8);
  (0x791a780a7c73dc, 0x294094d6f1c97d, 0x4f37f17932e825, 0x1afc183f41575c);
  (0x1416ce18e2bcfdd, 0x36bea0f692752b, 0x4f37f17932e825, 0xd7e0c1fa0abae);
  (0x43ed100a55b5cd, 0x39d862d6d18ef7, 0xfd7fd183d61a1, 0xd7e0c1fa0abae);
  (0x87da2014ab6b9a, 0x39d862d6d18ef7, 0xfd7fd183d61a1, 0x6bf060fd055d7);
  (0x1167205eed3da43, 0x3b47ccb29249c3, 0x1faffa307ac342, 0x6bf060fd055d7);
  (0x233a1d1a324b795, 0x3bff81a072a729, 0x3f5ff460f58684, 0x6bf060fd055d7);
  (0x640d2c406fd69d, 0x35407b90a25152, 0x3f5ff460f58684, 0x21bb1e4f11ad33);
  (0x640d2c406fd69d, 0x1aa03dc85128a9, 0xe2cd15025ae3a5, 0x3c5b5c1762d5dc);
  (0xc81a5880dfad3a, 0x1aa03dc85128a9, 0x1aae76d833a90df, 0x38cdebd4029397);
  (0x5d4f667af2d38e, 0x3e146fa6109de9, 0x556f2804bd7af, 0x38d7043604245);
  (0xb81580fffc262d, 0x3d3c720fba823f, 0xaade50097af5e, 0x38d7043604245);
  (0xc2c3660093d58b, 0x2064f1298d6242, 0xd81f3001c33447, 0x23f2616ceda487);
  (0x26f3e13350c44f, 0x2064f1298d6242, 0x3c4fab3480230b, 0x3228227a6ead9b);
  (0x26f3e13350c44f, 0x10327894c6b121, 0x789f5669004616, 0x3228227a6ead9b);
  (0x4de7c266a1889e, 0x10327894c6b121, 0xed7afa02f29303, 0x315fc61c61607f);
  (0x9bcf84cd43113c, 0x10327894c6b121, 0x1d7324136d72cdd, 0x30fb97ed5ab9f1);
  (0x3d92448f180843, 0x2000c2fa86bbb4, 0x5e3d403e2b08f9, 0x30fb97ed5ab9f1);
  (0x3d92448f180843, 0x1000617d435dda, 0xbc7a807c5611f2, 0x30fb97ed5ab9f1);
  (0x1b6874587c42c27, 0x38fbc8abfc68de, 0x178f500f8ac23e4, 0x30fb97ed5ab9f1);
  (0x3d92448f180843, 0x2800f3b9286aa1, 0x32c34b2bb26a46, 0x20fb3670175c17);
  (0x70558fbaca7289, 0x247e15149fe35c, 0x6586965764d48c, 0x20fb3670175c17);
  (0x70558fbaca7289, 0x123f0a8a4ff1ae, 0x13b62bc69941ba1, 0x333a40fa674dc5);
  (0x452ca27c23f32, 0x382dea4888745, 0x4dbf3e7cb878f9, 0x3f243f8f4b7e3e);
  (0x70558fbaca7289, 0x2d9d9a59c7dc33, 0x67affb6b45f425, 0x2a1abbb53f54ee);
  (0xe0ab1f7594e512, 0x2d9d9a59c7dc33, 0x67affb6b45f425, 0x150d5dda9faa77);
  (0x1485b1ae0dad937, 0x21557c1a33c355, 0x217bb11b766c181, 0x3662d9f4d36dcc);
  (0x78fb240a4ef0ed, 0x3d68973de47c56, 0x11475d5c0c3179, 0x8c53f9b0b9199);
  (0x9b89dec26753df, 0x27798b39fdcfc4, 0xbe18997a7fb6d1, 0x303ecad509615d);
  (0x9b89dec26753df, 0x13bcc59cfee7e2, 0x17c3132f4ff6da2, 0x303ecad509615d);
  (0x643f1a68a6b58f, 0x3f9adda4cc4106, 0xdd2b116702794, 0x8c53f9b0b9199);
  (0x9b89dec26753df, 0x3157ee087d43b5, 0xb72f40ef47a307, 0x3a1d2da388d54e);
  (0x13713bd84cea7be, 0x3157ee087d43b5, 0xb72f40ef47a307, 0x1d0e96d1c46aa7);
  (0x199418eab49a8b, 0x14495736b8d90e, 0x374ac459c09e50, 0x2bda3e0739d7fd);
  (0x199418eab49a8b, 0xa24ab9b5c6c87, 0x8829a19e35d72b, 0x35fee9a2964484);
  (0x332831d5693516, 0xa24ab9b5c6c87, 0x121a2371e71766d, 0x396d77a36067d7);
  (0x332831d5693516, 0x32b75a08ce1ea3, 0x2576c3e3ec9c0d, 0x2524206ca78ec9);
  (0x589ef5b955d123, 0x2bedbd3abad6b6, 0x4aed87c7d9381a, 0x2524206ca78ec9);
  (0x589ef5b955d123, 0x15f6de9d5d6b5b, 0xee7a0549084157, 0x3b1aff0a04fa24);
  (0xb13deb72aba246, 0x15f6de9d5d6b5b, 0x19fb7f0bbb3e39d, 0x33845e225fe86d);
  (0x2372c8b088ba0e, 0x15f6de9d5d6b5b, 0x60aee286e5591f, 0x3be8032396c3ee);
  (0x46e5916111741c, 0x15f6de9d5d6b5b, 0xa79473e7f6cd3b, 0x33eae02f28cd52);
  (0x8dcb22c222e838, 0x15f6de9d5d6b5b, 0x1355f96aa19b573, 0x2fec4eb4f1d204);
  (0x4feb37d350f721, 0x3de60a5de146c3, 0x3ddfeaeed1f117, 0x2fec4eb4f1d204);
  (0x9fd66fa6a1ee42, 0x3de60a5de146c3, 0x3ddfeaeed1f117, 0x17f6275a78e902);
  (0x13facdf4d43dc84, 0x3de60a5de146c3, 0x3ddfeaeed1f117, 0xbfb13ad3c7481);
  (0x3fef5fdc40c5b4, 0x3de60a5de146c3, 0x3ddfeaeed1f117, 0x3be762622e4685);
  (0x7fdebfb8818b68, 0x3de60a5de146c3, 0x7dcf4acb12b6cb, 0x3ce6b66007c6a4);
  (0xffbd7f710316d0, 0x3de60a5de146c3, 0x7dcf4acb12b6cb, 0x1e735b3003e352);
  (0x1ff7afee2062da0, 0x3de60a5de146c3, 0x7dcf4acb12b6cb, 0xf39ad9801f1a9);
  (0x33f8e1dbf9c002, 0x1f72af2ddd6371, 0x49d668ef18f6c9, 0x2cadb4ca2c54dc);
  (0xb1c82ca70c76cd, 0x35c98992f38ddf, 0x49d668ef18f6c9, 0x1656da65162a6e);
  (0x16390594e18ed9a, 0x35c98992f38ddf, 0x49d668ef18f6c9, 0xb2b6d328b1537);
  (0x3858634633315d, 0x2a9e1c606878a8, 0x49d668ef18f6c9, 0x37d921fcb76a13);
  (0x3858634633315d, 0x154f0e30343c54, 0x93acd1de31ed92, 0x37d921fcb76a13);
  (0x3858634633315d, 0xaa787181a1e2a, 0x12759a3bc63db24, 0x37d921fcb76a13);
  (0x3858634633315d, 0x3545a3788296d2, 0xdfe6aed849df0, 0xd3b059c4ef16b);
  (0x3858634633315d, 0x1aa2d1bc414b69, 0x545539213c6d3d, 0x27ddd758903cd4);
  (0x70b0c68c6662ba, 0x1aa2d1bc414b69, 0xc505ffada2cff7, 0x2e91bd688969d3);
  (0x135b6c63a0932b1, 0x249a4792655a9e, 0x18a0bff5b459fee, 0x2e91bd688969d3);
  (0x1c35aa64b6780b, 0x10ab5be61d3c34, 0x545539213c6d3d, 0x31d54d2eb44c09);
  (0x1c35aa64b6780b, 0x855adf30e9e1a, 0xc4e01ca72f5285, 0x3a2afb21c2ea23);
  (0x1c35aa64b6780b, 0x42ad6f9874f0d, 0x1a5f5e3b3151d15, 0x3e55d21b4a3930);
  (0x1c35aa64b6780b, 0x14d632dfa48b41, 0x491bb62ebb3c33, 0x360024283b9b16);
  (0x81870af8282c49, 0x2fd644f3c258cc, 0x491bb62ebb3c33, 0x1b0012141dcd8b);
  (0x81870af8282c49, 0x17eb2279e12c66, 0x113be77559ea4af, 0x32eb348dfef9f1);
  (0x3079241bcd35b1, 0x2cc1555985b7a7, 0x2094c2c08dc0e7, 0x1e1501ae5a6eb0);
  (0x81870af8282c49, 0x3bcbd630b2eeff, 0x2094c2c08dc0e7, 0xf0a80d72d3758);
  (0x1030e15f0505892, 0x3bcbd630b2eeff, 0x2094c2c08dc0e7, 0x785406b969bac);
  (0x226b0eea12e720b, 0x3f8e76667e3cd5, 0x2094c2c08dc0e7, 0x3c2a035cb4dd6);
  (0x6b9696000cff5f, 0x3e15c1b6768351, 0x68426f34f8cfb, 0x3c2a035cb4dd6);
  (0xddb152f3698bb9, 0x3ff711d15c2a3c, 0x68426f34f8cfb, 0x1e1501ae5a6eb);
  (0x1bb3e7f43fa450f, 0x3ff1dab1ee2ab9, 0xd084de69f19f6, 0x1e1501ae5a6eb);
  (0x560ad6ac456f05, 0x3e108a970883ce, 0xd084de69f19f6, 0x96690867c4297);
  (0xa43caa14000ac9, 0x3b3bf6def909ac, 0x1a109bcd3e33ec, 0x96690867c4297);
  (0xd85de1ae7c72a1, 0x27048bf5f8c76d, 0x10c7f1948f8da79, 0x306b1c7c750a04);
  (0x20d8eed0cccef5, 0x1d9dfb6f7c84d6, 0x3421379a7c67d8, 0x2f00d2a06d4cf3);
  (0x20d8eed0cccef5, 0xecefdb7be426b, 0x891b5e05c59ea5, 0x3dcfd0582b8f5e);
  (0x41b1dda1999dea, 0xecefdb7be426b, 0x10c7f1948f8da79, 0x3c85e39b924c85);
  (0x1d194b22dc5b437, 0x34796e616689e3, 0x14e30f6ea927863, 0x25aa70a9a84778);
  (0x66d32181880856, 0x39f20a225fc6d3, 0xe484ce0d599bf, 0x80c753a2bc2a2);
  (0xdbee8fe3e5aa6b, 0x3df844bf75a824, 0xe484ce0d599bf, 0x4063a9d15e151);
  (0x131a05d28e744e5, 0x2b0ed236fc7805, 0x14e30f6ea927863, 0x2f150cd4125956);
  (0x37698d7b0c037b, 0x27089799e696b4, 0x53fa273cb736f9, 0x3b27bcab53fd49);
  (0x37698d7b0c037b, 0x13844bccf34b5a, 0xa7f44e796e6df2, 0x3b27bcab53fd49);
  (0x37698d7b0c037b, 0x9c225e679a5ad, 0x14fe89cf2dcdbe4, 0x3b27bcab53fd49);
  (0x37698d7b0c037b, 0x30cabd80603c61, 0x3819697e5cf815, 0x316596c4da579c);
  (0x6ed31af61806f6, 0x30cabd80603c61, 0x3819697e5cf815, 0x18b2cb626d2bce);
  (0x115bf9f6a8d0601, 0x3d24233196d248, 0x3819697e5cf815, 0xc5965b13695e7);
  (0x115bf9f6a8d0601, 0x1e921198cb6924, 0x185f2726746f62b, 0x2aeb774a01ff0b);
  (0x211c28e2c3d12b, 0x1238abe794d33d, 0x7032d2fcb9f02a, 0x3dbefc7610ed83);
  (0x423851c587a256, 0x1238abe794d33d, 0xd3874da50563ab, 0x3a34801667b39d);
  (0x115bf9f6a8d0601, 0x263695fefe436d, 0x1a70e9b4a0ac756, 0x3a34801667b39d);
  (0x4a510b98102a8a, 0x331f8757153fd1, 0x1d0fcbf97f8d11, 0x13fdea17697030);
  (0xb1b1e3299fe225, 0x3d1e7c62c9f7e9, 0x1d0fcbf97f8d11, 0x9fef50bb4b818);
  (0x16363c6533fc44a, 0x3d1e7c62c9f7e9, 0x1d0fcbf97f8d11, 0x4ff7a85da5c0c);
  (0x35a413ae269f6b, 0x2e200cd13ae3c5, 0x1d0fcbf97f8d11, 0x18fd649d43cc3c);
  (0x8857f355cccbe7, 0x3a9ebf1fdcc9e3, 0x1d0fcbf97f8d11, 0xc7eb24ea1e61e);
  (0x110afe6ab9997ce, 0x3a9ebf1fdcc9e3, 0x1d0fcbf97f8d11, 0x63f592750f30f);
  (0x2505daa6414a789, 0x3fabc9e82b9dc4, 0x3a1f97f2ff1a22, 0x63f592750f30f);
  (0x5f394bb2d14a41, 0x332d179989b7a6, 0x3a1f97f2ff1a22, 0x1f3cbdc494bf4b);
  (0xd3787b98cf7e85, 0x38d34991599b1e, 0x743f2fe5fe3444, 0x1f3cbdc494bf4b);
  (0xd3787b98cf7e85, 0x1c69a4c8accd8f, 0x1bbf6db64cbe70d, 0x3ba6628d418cda);
  (0x21e28a3d4abbb3, 0x16c372d0dcea17, 0x58caf8adc26169, 0x3ba6628d418cda);
  (0x9c900d2857d8cf, 0x3496a4177db084, 0x58caf8adc26169, 0x1dd33146a0c66d);
  (0x14e25fe83dc9ba1, 0x381e83525f9eaf, 0xb195f15b84c2d2, 0x1dd33146a0c66d);
  (0x3a6ba46c4d5b1f, 0x310ec4dc9bc259, 0x27b8c44fbd2291, 0x215b108182b498);
  (0x74d748d89ab63e, 0x310ec4dc9bc259, 0x27b8c44fbd2291, 0x10ad8840c15a4c);
  (0x111675600f28f0d, 0x396588fcfc6f7f, 0x27b8c44fbd2291, 0x856c42060ad26);
  (0x24a877051a240ab, 0x3d90eb0d2cc612, 0x27b8c44fbd2291, 0x42b6210305693);
  (0x6d5c88cd2dd2d2, 0x396588fcfc6f7f, 0x27b8c44fbd2291, 0x14d8ea50f1b0df);
  (0x95154d1ceaf563, 0x271f39a6f7102f, 0xe486d5bc653a85, 0x3bf823f7e8c10e);
  (0x12a2a9a39d5eac6, 0x271f39a6f7102f, 0xe486d5bc653a85, 0x1dfc11fbf46087);
  (0x45a3c47d70b041, 0x2dafc6570d6e48, 0x2db49125add881, 0x1dfc11fbf46087);
  (0xa10ce6c8cc6143, 0x34d3f5277b17ab, 0x5b69224b5bb102, 0x1dfc11fbf46087);
  (0xfc760914281245, 0x29680391b7bc19, 0xb6d24496b76204, 0x1dfc11fbf46087);
  (0x45a3c47d70b041, 0x391bb7ecd0c9da, 0x2490741e24ad34, 0x1dfc11fbf46087);
  (0x8ec4acb9ba0aa9, 0x3a89edf25cc574, 0x4920e83c495a68, 0x1dfc11fbf46087);
  (0x121067d324cbf79, 0x3b4108f522c341, 0x9241d07892b4d0, 0x1dfc11fbf46087);
  (0x1b3484daadf7449, 0x2c9e8d788b91e4, 0x12483a0f12569a0, 0x1dfc11fbf46087);
  (0x1c8dbc25253555, 0xea27b7c97315d, 0x793138124629a2, 0x3e1d75003aba75);
  (0x391b784a4a6aaa, 0xea27b7c97315d, 0xceda6c81b5c9a1, 0x350273bb002746);
  (0x1b3484daadf7449, 0x37c630d6ae765d, 0x141115d164a9ef5, 0x2923b55a174500);
  (0x3200445cec4f23, 0x2008b414dcb1d1, 0x4036ac37a88631, 0x2923b55a174500);
  (0xa43734f1812477, 0x349a8ec1e85451, 0x4036ac37a88631, 0x1491daad0ba280);
  (0x188a5161aaacf1f, 0x3ee37c186e2591, 0x4036ac37a88631, 0xa48ed5685d140);
  (0x280036b0bd0c1c, 0x2008b414dcb1d1, 0x4036ac37a88631, 0x336ca2b09d1640);
  (0x90371999229e69, 0x39bf056d2b3cf1, 0x4036ac37a88631, 0x19b651584e8b20);
  (0x1206e3332453cd2, 0x39bf056d2b3cf1, 0x4036ac37a88631, 0xcdb28ac274590);
  (0x240dc66648a79a4, 0x39bf056d2b3cf1, 0x4036ac37a88631, 0x66d945613a2c8);
  (0x66878ba2939717, 0x33517117179a29, 0x4036ac37a88631, 0x2023e5ae622de8);
  (0xcd0f1745272e2e, 0x33517117179a29, 0x4036ac37a88631, 0x1011f2d73116f4);
  (0x1da54dac1f6e28d, 0x3b5a6a82b025a3, 0x4036ac37a88631, 0x808f96b988b7a);
  (0x452e4d43bac46f, 0x2b4877ab7f0eaf, 0x4036ac37a88631, 0x282cdf19fab962);
  (0xca9346bf1e0f0f, 0x3f5ee7387c6b60, 0x4036ac37a88631, 0x14166f8cfd5cb1);
  (0x14b009f2e6f1b71, 0x33c5e3293b9261, 0x806d586f510c62, 0x14166f8cfd5cb1);
  (0x2883daf3060303, 0x1faf739c3e35b0, 0x2f65a28945065c, 0x25114688766415);
  (0x2883daf3060303, 0xfd7b9ce1f1ad8, 0x874f2005900fbb, 0x34e90056957eed);
  (0x2883daf3060303, 0x7ebdce70f8d6c, 0x137221afe262279, 0x3cd4dd3da50c59);
  (0x2883daf3060303, 0x279b50834dc31c, 0x2e05476b386c17, 0x2cfd236f85f181);
  (0x2883daf3060303, 0x13cda841a6e18e, 0x5c0a8ed670d82e, 0x2cfd236f85f181);
  (0x2883daf3060303, 0x9e6d420d370c7, 0xe098f89fe7b35f, 0x36e3f790596248);
  (0x1d3b01a520bc571, 0x3926782aa70379, 0x182a8646bffbf6b, 0x2f3fa409d392b2);
  (0x5107b5e60c0606, 0x318224a42133e3, 0x1cb6a6f1f8bc45, 0x118b27a759405d);
  (0x6dbe5cd804c24b, 0x2186a625bd3a20, 0xa72baabbf63ad5, 0x3311cdcd167a7d);
  (0x6dbe5cd804c24b, 0x10c35312de9d10, 0x14e575577ec75aa, 0x3311cdcd167a7d);
  (0x15f2df5e675a0f, 0x10c35312de9d10, 0x46f4dd0b143cf6, 0x3631201f0107b1);
  (0x15f2df5e675a0f, 0x861a9896f4e88, 0xa3dc99748fd3fb, 0x3e92c9a8705639);
  (0x15f2df5e675a0f, 0x430d4c4b7a744, 0x147b932e91fa7f6, 0x3e92c9a8705639);
  (0x15f2df5e675a0f, 0x14f427d7964454, 0x34601dc2c851f5, 0x32004b5a49606d);
  (0x15f2df5e675a0f, 0xa7a13ebcb222a, 0x7eb31ae3f7fdf9, 0x3c7a5f46148297);
  (0x15f2df5e675a0f, 0x53d09f5e59115, 0xfd6635c7effbf2, 0x3c7a5f46148297);
  (0x2be5bebcceb41e, 0x53d09f5e59115, 0x1eed5ced660da97, 0x3b0ce66b78df3f);
  (0x2be5bebcceb41e, 0x1a3131cd7bd569, 0x516876ac2716df, 0x3092d27fadbd15);
  (0x57cb7d799d683c, 0x1a3131cd7bd569, 0xd519b2e2933339, 0x3f9333f4109ea8);
  (0xaf96faf33ad078, 0x1a3131cd7bd569, 0x184b0add5ce03b1, 0x39facbc78424bd);
  (0x3ebbd9316c3fa3, 0x2ec9fb6e6b30e7, 0x321f4890625132, 0x2562022694c93f);
  (0x7d77b262d87f46, 0x2ec9fb6e6b30e7, 0x70db21c1ce90d5, 0x2a15feca7ffd13);
  (0xee52d424a7101b, 0x2c6ffd1c7596fd, 0xe1b643839d21aa, 0x2a15feca7ffd13);
  (0x39c10488295b93, 0x35d7f6644bfea5, 0x2d2473e71f6d22, 0x2a15feca7ffd13);
  (0x66e5786f48c8b5, 0x2ff6fa9765fddc, 0x5a48e7ce3eda44, 0x2a15feca7ffd13);
  (0x66e5786f48c8b5, 0x17fb7d4bb2feee, 0xb491cf9c7db488, 0x2a15feca7ffd13);
  (0x1d00917a84431c5, 0x3613bd70597c8a, 0x169239f38fb6910, 0x2a15feca7ffd13);
  (0x14944b4974f4f1, 0xbfdbea5d97f77, 0x5d9bcc7e0af8d3, 0x368b4b88747854);
  (0x29289692e9e9e2, 0xbfdbea5d97f77, 0xd9159036c8b679, 0x3f3ee1b5c6ba8f);
  (0x1a6e081155a47e3, 0x3d99cd79831bf1, 0x1548f53ef86741f, 0x319c0ed3a99c7a);
  (0x52512d25d3d3c4, 0x3bf4b93d3f7d53, 0x232f6520c628eb, 0x19a09187f69d8c);
  (0xa4a25a4ba7a788, 0x3bf4b93d3f7d53, 0x232f6520c628eb, 0xcd048c3fb4ec6);
  (0x14944b4974f4f10, 0x3bf4b93d3f7d53, 0x232f6520c628eb, 0x6682461fda763);
  (0x25b4a0040aef14, 0x225427b548dfc7, 0x232f6520c628eb, 0x2008b5e9f444ef);
  (0x48e40524d117ff, 0x212e6ecf9e925b, 0x465eca418c51d6, 0x2008b5e9f444ef);
  (0x91c80a49a22ffe, 0x212e6ecf9e925b, 0x8f42cf665d69d5, 0x209b925cc96ba5);
  (0x1210ad9afff99d3, 0x20e5009633ff00, 0x11e859eccbad3aa, 0x209b925cc96ba5);
  (0x39cef8566651f7, 0x20e5009633ff00, 0x3749bd73218bce, 0x1f75d9771f1e39);
  (0x39cef8566651f7, 0x1072804b19ff80, 0xa862733ca96993, 0x2fe859c2391db9);
  (0x39cef8566651f7, 0x83940258cffc0, 0x18a93decfb9251d, 0x382199e7c61d79);
  (0x39cef8566651f7, 0x291e40bbc0fec0, 0x2c3afdf5b46fd8, 0x1f75d9771f1e39);
  (0x39cef8566651f7, 0x148f205de07f60, 0x9244f441cf31a7, 0x3404f9d4ff9d99);
  (0x39cef8566651f7, 0xa47902ef03fb0, 0x15e58e0da04b545, 0x3e4c8a03efdd49);
  (0x39cef8566651f7, 0x3365d0eab13e70, 0x2ef230090b36ab, 0x29bd69a60f5de9);
  (0x39cef8566651f7, 0x19b2e875589f38, 0x5de46012166d56, 0x29bd69a60f5de9);
  (0x39cef8566651f7, 0xcd9743aac4f9c, 0xf597b87a932ca3, 0x3696dde0bbad85);
  (0x39cef8566651f7, 0x66cba1d5627ce, 0x224fe694b8cab3d, 0x3d0397fe11d553);
  (0x39cef8566651f7, 0x201fa292aec706, 0x56ace4ec8cce43, 0x302a23c36585b7);
  (0x39cef8566651f7, 0x100fd149576383, 0xad59c9d9199c86, 0x302a23c36585b7);
  (0x739df0accca3ee, 0x100fd149576383, 0x15ac6b2dc4c926b, 0x302ccbcfb5d820);
  (0x172369916132a9, 0x10127955a7b5ec, 0x45571d8a0a3e9c, 0x302a23c36585b7);
  (0x172369916132a9, 0x8093caad3daf6, 0xa1d1a4a575afe1, 0x3833606e3960ad);
  (0x172369916132a9, 0x4049e5569ed7b, 0x15ac6b2dc4c926b, 0x3c37fec3a34e28);
  (0x172369916132a9, 0x141717ab11a367, 0x32d835b7c18e5b, 0x2c25856dfb983c);
  (0x611f08da83f3ad, 0x2a29da620f6f85, 0x32d835b7c18e5b, 0x1612c2b6fdcc1e);
  (0xf516476cc975b5, 0x35333bbd8e5594, 0x32d835b7c18e5b, 0xb09615b7ee60f);
  (0xf516476cc975b5, 0x1a999ddec72aca, 0x15ac6b2dc4c926b, 0x25a2ff3a4610d9);
  (0x310474af5b7df1, 0x1a999ddec72aca, 0x65b06b6f831cb6, 0x372ee6c97a7e4b);
  (0x310474af5b7df1, 0xd4cceef639565, 0xcb60d6df06396c, 0x372ee6c97a7e4b);
  (0x6208e95eb6fbe2, 0xd4cceef639565, 0x1c0771e4bcfaf21, 0x3cd778bb3634a2);
  (0x1bf2dec8e53e6f, 0x12f560e11f4bbc, 0x46160a95d1bd73, 0x2f8aa9cbd29f3d);
  (0x1bf2dec8e53e6f, 0x97ab0708fa5de, 0xa81ef3f488b955, 0x39055a3c62451b);
  (0x1bf2dec8e53e6f, 0x4bd583847d2ef, 0x16c30c6b1f6b119, 0x3dc2b274aa180a);
  (0x1bf2dec8e53e6f, 0x17b2b919671eab, 0x48d68e2397bd05, 0x3dc2b274aa180a);
  (0x80bc4bb56239e3, 0x36941253bc2ab0, 0x48d68e2397bd05, 0x1ee1593a550c05);
  (0x1126967fc91b3ed, 0x3a2b626433215d, 0x91ad1c472f7a0a, 0x1ee1593a550c05);
  (0x1a4168443c12df7, 0x2c865dcf4416b1, 0x1235a388e5ef414, 0x1ee1593a550c05);
  (0x6dc3c331d3e192, 0x3a2b626433215d, 0x5acb3aae458941, 0x301daddfbb0d5e);
  (0xdb878663a7c324, 0x3a2b626433215d, 0x5acb3aae458941, 0x180ed6efdd86af);
  (0x13652c111ed4c65, 0x291d1caa085406, 0xb596755c8b1282, 0x180ed6efdd86af);
  (0x57cfcf5b0fe7a8, 0x3a2b626433215d, 0x2ee35300bd956d, 0x1f0f6825904007);
  (0xaf9f9eb61fcf50, 0x3a2b626433215d, 0x86b3225bcd7d15, 0x2c9d6544e1b0b2);
  (0x15f3f3d6c3f9ea0, 0x3a2b626433215d, 0x86b3225bcd7d15, 0x164eb2a270d859);
  (0x2b4f389ce3a04f, 0x23dcafc1c24904, 0x3014b122063c77, 0x27d01da8afa7b5);
  (0x2b4f389ce3a04f, 0x11ee57e0e12482, 0x8b789ae0f0193d, 0x39be758990cc37);
  (0x2b4f389ce3a04f, 0x8f72bf0709241, 0x116f135c1e0327a, 0x39be758990cc37);
  (0x569e7139c7409e, 0x8f72bf0709241, 0x2461bc20c1994a3, 0x3c40548e5265ff);
  (0x1152e371f4a686, 0x8f72bf0709241, 0x725dc5074c0481, 0x3b30046bbc9120);
  (0x22a5c6e3e94d0c, 0x8f72bf0709241, 0xda4f19b307eba5, 0x387d86072fff53);
  (0x454b8dc7d29a18, 0x8f72bf0709241, 0x1ccd789ee6906f9, 0x3b9fdccd21ff8d);
  (0x454b8dc7d29a18, 0x2cd3dbb232db45, 0x5c2b1b96150165, 0x3b9fdccd21ff8d);
  (0xa176a95de79b7d, 0x3439dc3faa6d69, 0xb856372c2a02ca, 0x3b9fdccd21ff8d);
  (0x142ed52bbcf36fa, 0x3439dc3faa6d69, 0x159cce08a119e47, 0x37ecdc8666367b);
  (0x32dc8843680037, 0x2920db6b771233, 0x49bc1611aa6784, 0x3b9fdccd21ff8d);
  (0x7c989e551267bb, 0x32605c1c4c88e0, 0x93782c2354cf08, 0x3b9fdccd21ff8d);
  (0x7c989e551267bb, 0x19302e0e264470, 0x126f05846a99e10, 0x3b9fdccd21ff8d);
  (0x7c989e551267bb, 0xc981707132238, 0x24de0b08d533c20, 0x3b9fdccd21ff8d);
  (0x7c989e551267bb, 0x3ef873235fab18, 0x75f9bce910a5a0, 0x3b9fdccd21ff8d);
  (0x7c989e551267bb, 0x1f7c3991afd58c, 0xebf379d2214b40, 0x3b9fdccd21ff8d);
  (0x7c989e551267bb, 0xfbe1cc8d7eac6, 0x1d7e6f3a4429680, 0x3b9fdccd21ff8d);
  (0x37228d453bf7fa, 0x22d4cfe7ed8117, 0x4576110fd66fc1, 0x2be1c0044a14c7);
  (0x7c989e551267bb, 0x275b47f61bcaef, 0x8aec221facdf82, 0x2be1c0044a14c7);
  (0xf9313caa24cf76, 0x275b47f61bcaef, 0x10784c074bf473d, 0x299e83fd32efdb);
  (0x2c1ba437632cc8, 0x22d4cfe7ed8117, 0x3a6f2801fda48f, 0x2e24fc0b6139b3);
  (0x668acc3960d157, 0x287ce5f9a75d65, 0x74de5003fb491e, 0x2e24fc0b6139b3);
  (0xcd159872c1a2ae, 0x287ce5f9a75d65, 0xdb691c3d5c1a75, 0x2b50f102844b8c);
  (0x206bcf6a307245, 0x2000c4df1092f0, 0x2ebf5334caea0c, 0x2e24fc0b6139b3);
  (0x206bcf6a307245, 0x1000626f884978, 0x7dea75d3c6465d, 0x3e255e7ae9832b);
  (0x206bcf6a307245, 0x8003137c424bc, 0xfbd4eba78c8cba, 0x3e255e7ae9832b);
  (0x206bcf6a307245, 0x400189be2125e, 0x1f7a9d74f191974, 0x3e255e7ae9832b);
  (0x206bcf6a307245, 0x14007b0b6a5bd6, 0x4acbb85477dce0, 0x2e24fc0b6139b3);
  (0x206bcf6a307245, 0xa003d85b52deb, 0xb6034013202c05, 0x3825399116679e);
  (0xf6dadee781108f, 0x2612da4e4061ba, 0xb6034013202c05, 0x1c129cc88b33cf);
  (0x315ef961803683, 0x2612da4e4061ba, 0x21e653ee9f887c, 0x1a2480fff6dddd);
  (0x315ef961803683, 0x13096d272030dd, 0x752ba13ebf477b, 0x2d2dee27170eba);
  (0x62bdf2c3006d06, 0x13096d272030dd, 0x13aa786c4c02187, 0x3ca9d161cbe917);
  (0x10100da7d9ea1d, 0xf7be33ab4da5d, 0x328dc9cb72aeaf, 0x30bb781382653a);
  (0x72ce006ada5723, 0x3755827f2ae757, 0x52ade51b2682e9, 0x27d99f44760cfa);
  (0xe59c00d5b4ae46, 0x3755827f2ae757, 0x52ade51b2682e9, 0x13eccfa23b067d);
  (0x1dda5b027283701, 0x398df8b2edfd67, 0xa55bca364d05d2, 0x13eccfa23b067d);
  (0x1d62d25882d579, 0x11b4596e77f06d, 0x4d33532cc48567, 0x2e8301dfbf4f2a);
  (0x3ac5a4b105aaf2, 0x11b4596e77f06d, 0xc2be9c8ecfdb4b, 0x3aaa33cccf886f);
  (0xfd84413fd5863d, 0x262f469da3bc6e, 0x1857d391d9fb696, 0x3aaa33cccf886f);
  (0x3f27b309540f5a, 0x2f8fe4ca001a1f, 0x1b31cb2c5ba345, 0x147aed2f2bcc01);
  (0x90bd148e66f929, 0x3680562bc1bf11, 0x36639658b7468a, 0x147aed2f2bcc01);
  (0x133e7d7988cccc7, 0x39f88edca2918a, 0x6cc72cb16e8d14, 0x147aed2f2bcc01);
  (0x1211e60abcbd53, 0x1102b47e4af988, 0x36917a9138551b, 0x335e8470fa0f6d);
  (0x1211e60abcbd53, 0x8815a3f257cc4, 0x7f34db2d2d6789, 0x3bdfdeb01f8c31);
  (0x1211e60abcbd53, 0x440ad1f92be62, 0xfe69b65a5acf12, 0x3bdfdeb01f8c31);
  (0x1211e60abcbd53, 0x220568fc95f31, 0x20ee552bf725b77, 0x3e00353fe8eb62);
  (0x39d2e0225bf77, 0x220568fc95f31, 0x6bac79c657998b, 0x3f59d1184d76b6);
  (0x73a5c044b7eee, 0x220568fc95f31, 0xd817de06c4097d, 0x3f91faf8f34f3a);
  (0xe74b80896fddc, 0x220568fc95f31, 0x1b0eea6879ce961, 0x3fae0fe9463b7c);
  (0x2e424ce84992c, 0x220568fc95f31, 0x55fd65b9751cc1, 0x3f3dbc27fa8a74);
  (0x5c8499d093258, 0x220568fc95f31, 0xacb9b5ecff0fe9, 0x3f83f080c9d919);
  (0xb90933a1264b0, 0x220568fc95f31, 0x1546a0cb709c3e1, 0x3e96df654cd0d3);
  (0xb90933a1264b0, 0xaa1b0ceeedbf5, 0x441535be35272d, 0x3e96df654cd0d3);
  (0x1721267424c960, 0xaa1b0ceeedbf5, 0x7de815e0911e9d, 0x39dfa9b7fb8e4e);
  (0x108aefc996dd6dd, 0x3cd4e748ca5b06, 0xda6cafb124441d, 0x32333679db7f11);
  (0x108aefc996dd6dd, 0x1e6a73a4652d83, 0x1b4d95f6248883a, 0x32333679db7f11);
  (0x5c8499d0932580, 0x3528740aaa4bc9, 0x226ee08e922379, 0x13c8c2d576518e);
  (0xdb78142fb86e79, 0x3f0cd575657490, 0x226ee08e922379, 0x9e4616abb28c7);
  (0x1aa11578725434f, 0x3d338efae4349d, 0x44ddc11d2446f2, 0x9e4616abb28c7);
  (0x39aac442928aaf, 0x296acc256de30f, 0x44ddc11d2446f2, 0x3175e715a7cbe3);
  (0x7e88855fb6d1a1, 0x2d70599d8ad779, 0x89bb823a488de4, 0x3175e715a7cbe3);
  (0xfd110abf6da342, 0x2d70599d8ad779, 0x108440799ff5f85, 0x2f7320599951ae);
  (0x29a76b1107bd3e, 0x25653ead50eea5, 0x34da67eb997981, 0x2f7320599951ae);
  (0x88293e0da8f3fd, 0x3d1eceda1d977c, 0x34da67eb997981, 0x17b9902ccca8d7);
  (0xf1de0de4dbe6ff, 0x3648f799db7495, 0x69b4cfd732f302, 0x17b9902ccca8d7);
  (0x15b92ddbc0eda01, 0x270143e3540eb6, 0x22efc7d6a74c005, 0x3ebad41020b78d);
  (0x4583c5f2695ecd, 0x270143e3540eb6, 0x486213c993286a, 0x289d4919572ec7);
  (0x4583c5f2695ecd, 0x1380a1f1aa075b, 0xd647ed858fafa1, 0x3c1deb0b013622);
  (0x8b078be4d2bd9a, 0x1380a1f1aa075b, 0x1614f796a626d3b, 0x318f97772aa26c);
  (0x445e0d35f2415b, 0x2ff3924127825b, 0x46a97eaee07c3f, 0x318f97772aa26c);
  (0x88bc1a6be482b6, 0x2ff3924127825b, 0x46a97eaee07c3f, 0x18c7cbbb955136);
  (0x15821b386a981ab, 0x3c57781ef22af6, 0x46a97eaee07c3f, 0xc63e5ddcaa89b);
  (0x3d7bb8cb2790af, 0x35e76346e5aab2, 0xe21e622f9b273, 0xc63e5ddcaa89b);
  (0x760351570e5a7b, 0x33bb7d5f08268f, 0x1c43cc45f364e6, 0xc63e5ddcaa89b);
  (0x103564eb4cf52f9, 0x38d77d59feb8cb, 0x3887988be6c9cc, 0xc63e5ddcaa89b);
  (0x21dfc49705143f5, 0x3b657d577a01e9, 0x710f3117cd9398, 0xc63e5ddcaa89b);
  (0x11f31a9d056451, 0x9d5e5e04f5f7d, 0x710f3117cd9398, 0x3df37d54f54b07);
  (0x83024bb4d2f7e9, 0x23e4b19aa25542, 0xe21e622f9b2730, 0x3df37d54f54b07);
  (0x83024bb4d2f7e9, 0x11f258cd512aa1, 0x1c43cc45f364e60, 0x3df37d54f54b07);
  (0x5cf70f83b61833, 0x3facf04842df60, 0x260b3c311cdfb6, 0x1a0ecbba52f5c5);
  (0x5cf70f83b61833, 0x1fd67824216fb0, 0xa90d87e5efd79f, 0x39e543de746575);
  (0x5cf70f83b61833, 0xfeb3c1210b7d8, 0x1521b0fcbdfaf3e, 0x39e543de746575);
  (0x6c03c73cb56b6, 0x5c7ac69ce79eb, 0x48b65a28541411, 0x3e41271ce82977);
  (0x5cf70f83b61833, 0x27cc162d29cb9c, 0x4f76969c1f6ac7, 0x220469c35b51b1);
  (0x5cf70f83b61833, 0x13e60b1694e5ce, 0xfbe43cbbf4edc1, 0x35ea74d9f0377f);
  (0x5cf70f83b61833, 0x9f3058b4a72e7, 0x254bf88fb9ff3b5, 0x3fdd7a653aaa66);
  (0x5cf70f83b61833, 0x31bf1bb8743e83, 0x64c1b1e4c85f1a, 0x35ea74d9f0377f);
  (0xc1b8c1687e774d, 0x33d4c849323b01, 0xc98363c990be34, 0x35ea74d9f0377f);
  (0x1837182d0fcee9a, 0x33d4c849323b01, 0x18b3c25320f3581, 0x34df9e91913940);
  (0x4bee2ce32eee57, 0x32c9f200d33cc2, 0x53b8cf4441353e, 0x3800216aae33fd);
  (0x4bee2ce32eee57, 0x1964f900699e61, 0xa7719e88826a7c, 0x3800216aae33fd);
  (0x97dc59c65ddcae, 0x1964f900699e61, 0xf35fcb6bb158d3, 0x28b28d358be92f);
  (0x1e5f4527ac5f56, 0x1964f900699e61, 0x3d242c7da71ccf, 0x331eec0941d7a5);
  (0x3cbe8a4f58beac, 0x1964f900699e61, 0x9841fbf4ac3ad1, 0x3fa6eb853f5964);
  (0x797d149eb17d58, 0x1964f900699e61, 0x111bf10935db829, 0x39386ec3094b13);
  (0xf2fa293d62fab0, 0x1964f900699e61, 0x18b3c25320f3581, 0x294eb3e1b974ba);
  (0x42bd4481385883, 0x22e0371f836669, 0x6d7fa03af249aa, 0x39386ec3094b13);
  (0xb03ce4bc2aa22d, 0x2e0c52f14658be, 0xdaff4075e49354, 0x39386ec3094b13);
  (0xb03ce4bc2aa22d, 0x17062978a32c5f, 0x1b5fe80ebc926a8, 0x39386ec3094b13);
  (0x47890ca91e6d2f, 0x2eba44c663a073, 0x3459ec09861a7f, 0x2232454a661eb4);
  (0xc36c055bc2f4dd, 0x3fd3676b96afcd, 0x3459ec09861a7f, 0x111922a5330f5a);
  (0x186d80ab785e9ba, 0x3fd3676b96afcd, 0x3459ec09861a7f, 0x88c91529987ad);
  (0x393a70874b8a8c, 0x2eba44c663a073, 0x3459ec09861a7f, 0x2abed69cffa661);
  (0x6d945c90d1a50b, 0x2cbc8db1b1a36a, 0x68b3d8130c34fe, 0x2abed69cffa661);
  (0x6d945c90d1a50b, 0x165e46d8d8d1b5, 0xd167b0261869fc, 0x2abed69cffa661);
  (0x21a24c5d88d591d, 0x36ecd593c50dc0, 0x13efc0cb6ea0f07, 0x208e8ebaec3c0b);
  (0x5b90b40bac10e0, 0x2eba44c663a073, 0x3fcc028afb9c9b, 0x208e8ebaec3c0b);
  (0x9b5cb696a7ad7b, 0x27a469c0a7ee3f, 0x7f980515f73936, 0x208e8ebaec3c0b);
  (0x11af4bbac9ee6b1, 0x24197c3dca1525, 0xff300a2bee726c, 0x208e8ebaec3c0b);
  (0x389758bc1fc7bd, 0x24197c3dca1525, 0x5569fff78f1b35, 0x367c54ed3eecc8);
  (0x712eb1783f8f7a, 0x24197c3dca1525, 0xc698b16fceaaaf, 0x3f57a6b4698b89);
  (0xe25d62f07f1ef4, 0x24197c3dca1525, 0x137c762e80e3a29, 0x31b8917919d057);
  (0x489e9632e3edfb, 0x39e7ae1f24d4f7, 0x11153331830571, 0xd9f153b4fbb32);
  (0x913d2c65c7dbf6, 0x39e7ae1f24d4f7, 0x11153331830571, 0x6cf8a9da7dd99);
  (0x12afbf923630cef, 0x3b99c6d505cfac, 0x222a6663060ae2, 0x6cf8a9da7dd99);
  (0x2e216f45de316f, 0x2dfab199b6147a, 0x222a6663060ae2, 0x220db5144753fd);
  (0x2e216f45de316f, 0x16fd58ccdb0a3d, 0x72763c0bea4733, 0x390b0de1225e3a);
  (0xceb91a97a6aa11, 0x3382dfbd6c395a, 0x72763c0bea4733, 0x1c8586f0912f1d);
  (0x1b3a592af7b3877, 0x3646f6cf474bca, 0xe4ec7817d48e66, 0x1c8586f0912f1d);
  (0x4e3fc4bc9fe329, 0x30bec8ab9126ea, 0x3239911e66e3bf, 0x1f499e026c418d);
  (0xb2b2e6f96daaa7, 0x37a9025834d502, 0x6473223ccdc77e, 0x1f499e026c418d);
  (0xb2b2e6f96daaa7, 0x1bd4812c1a6a81, 0x17b992b730939a3, 0x3b1e1f2e86ac0e);
  (0x430a167d55e365, 0x3433e581e2fdf6, 0x2c9eb9fec1e3dd, 0x22bebad8be1899);
  (0x430a167d55e365, 0x1a19f2c0f17efb, 0x9c478a7ad9ab1f, 0x3cd8ad99af9794);
  (0x1225bb7758571e9, 0x3886498dc94ac5, 0x9c478a7ad9ab1f, 0x1e6c56ccd7cbca);
  (0x3a1257e44de395, 0x3886498dc94ac5, 0x2822dab23de3f5, 0x27111ee4a46568);
  (0x7424afc89bc72a, 0x3886498dc94ac5, 0x2822dab23de3f5, 0x13888f725232b4);
  (0xe8495f91378e54, 0x3886498dc94ac5, 0x2822dab23de3f5, 0x9c447b929195a);
  (0x1d092bf226f1ca8, 0x3886498dc94ac5, 0x1f8b599d4ad009d, 0x3d686d6a5dd772);
  (0x3cce4411e4b5c4, 0x24fdba1b771811, 0x64f11ec42299b9, 0x3d686d6a5dd772);
  (0x799c8823c96b88, 0x24fdba1b771811, 0x64f11ec42299b9, 0x1eb436b52eebb9);
  (0xde8da6e7ec0541, 0x21d8f8685301e5, 0xc9e23d88453372, 0x1eb436b52eebb9);
  (0x38e993ce2ce556, 0x2b473d81bf4469, 0x243e2a6e861387, 0x1b8f75020ad58d);
  (0xa5a41319bf1feb, 0x3eface43efe288, 0x487c54dd0c270e, 0x1b8f75020ad58d);
  (0xa5a41319bf1feb, 0x1f7d6721f7f144, 0x1369cbcd3d76e07, 0x3b0cdc2402c6d1);
  (0x2120d09ebfd32f, 0x1f7d6721f7f144, 0x2d9637ddd8d48f, 0x2b5513a44e57f5);
  (0x2120d09ebfd32f, 0xfbeb390fbf8a2, 0x7c4d405a717c4d, 0x3b13c7354a5097);
  (0x2120d09ebfd32f, 0x7df59c87dfc51, 0xf89a80b4e2f89a, 0x3b13c7354a5097);
  (0x4241a13d7fa65e, 0x7df59c87dfc51, 0x1e080350c21bee3, 0x39179dd85e1b67);
  (0xd405372b32146, 0x7df59c87dfc51, 0x6036c10dd6f9f5, 0x3928e98390f3d6);
  (0x1a80a6e566428c, 0x7df59c87dfc51, 0xca395ca3700425, 0x3c11dbe3c06b2f);
  (0x35014dcacc8518, 0x7df59c87dfc51, 0x183bdece93bd5f9, 0x3996a82f9928b3);
  (0x35014dcacc8518, 0x275cc0ea75ed95, 0x2324f12601f385, 0x1a19410da1376f);
  (0x6a029b95990a30, 0x275cc0ea75ed95, 0x58263ef0ce789d, 0x20bb00fc0b9282);
  (0xd405372b321460, 0x275cc0ea75ed95, 0x12c2b761c008cfd, 0x37ba41687bb6d6);
  (0x18c631a5471f27, 0x16ff406c702454, 0x3f600d4b875976, 0x3ad44209acc9f1);
  (0x18c631a5471f27, 0xb7fa03638122a, 0x7ec01a970eb2ec, 0x3ad44209acc9f1);
  (0x18c631a5471f27, 0x5bfd01b1c0915, 0xfd80352e1d65d8, 0x3ad44209acc9f1);
  (0x318c634a8e3e4e, 0x5bfd01b1c0915, 0x20e0457482bbc85, 0x3d091999f096ec);
  (0x318c634a8e3e4e, 0x1cbf10878c2d69, 0x55625023cfd995, 0x31897963b884c2);
  (0xb87b16b8ec5631, 0x3583cd39686fca, 0x55625023cfd995, 0x18c4bcb1dc4261);
  (0xb87b16b8ec5631, 0x1ac1e69cb437e5, 0x1633fb7008c095b, 0x3386a34e907a46);
  (0x4c88ed93d44315, 0x3780f72440654e, 0x1f693b9143d007, 0x16c792c7044cdd);
  (0x4c88ed93d44315, 0x1bc07b922032a7, 0x8b5b64b65be323, 0x32880e59247f84);
  (0x1246d3fde04694d, 0x350482beb27269, 0x8b5b64b65be323, 0x1944072c923fc2);
  (0x45749eba3e3115, 0x3ef65454ea3dfd, 0x1bdf142478c707, 0x1944072c923fc2);
  (0x8ae93d747c622a, 0x3ef65454ea3dfd, 0x1bdf142478c707, 0xca20396491fe1);
  (0x11644a22ad8454d, 0x3f1033222beeb1, 0x37be2848f18e0e, 0xca20396491fe1);
  (0x22cfb6b97900b93, 0x3f1d2288ccc70b, 0x6f7c5091e31c1c, 0xca20396491fe1);
  (0x16353b76671f07, 0xc95142fa84787, 0x6f7c5091e31c1c, 0x3f2a11ef6d9f65);
  (0xb21c02f5187931, 0x3274a73f333afd, 0x85b18c084a3b23, 0x25df930f8af376);
  (0x1643805ea30f262, 0x3274a73f333afd, 0x85b18c084a3b23, 0x12efc987c579bb);
  (0x3e457b2580a3df, 0x2c19f1e71608c9, 0x23b6087164cba2, 0x194a7edfe2abef);
  (0x61fb8396e56f81, 0x22b238637c5a5c, 0xa9679479af06c5, 0x3bfcb7435f064b);
  (0x61fb8396e56f81, 0x11591c31be2d2e, 0x152cf28f35e0d8a, 0x3bfcb7435f064b);
  (0x31d12f5133b64c, 0x2c19f1e71608c9, 0x302a5445b1b935, 0x2aa39b11a0d91d);
  (0x61fb8396e56f81, 0x2b5ec67c5b70f3, 0x6054a88b63726a, 0x2aa39b11a0d91d);
  (0xc3f7072dcadf02, 0x2b5ec67c5b70f3, 0xc2502c2248e1eb, 0x2b0130c6fe2508);
  (0x187ee0e5b95be04, 0x2b5ec67c5b70f3, 0xc2502c2248e1eb, 0x158098637f1284);
  (0x4fb51881ec56e0, 0x2c19f1e71608c9, 0x2633b135742e59, 0x152302ae21c699);
  (0x75e8c9b7608539, 0x209e7a4a9be7b1, 0xc2502c2248e1eb, 0x35c17cf8bdae4a);
  (0x1ae21bf9109ec5d, 0x3b7f38c6fabed6, 0xc2502c2248e1eb, 0x1ae0be7c5ed725);
  (0x48112844084d9b, 0x31d7adb5531955, 0x1e8fc0f7902514, 0x152302ae21c699);
  (0xa3c06b2ab8bcd7, 0x38a05adfdc3690, 0x3d1f81ef204a28, 0x152302ae21c699);
  (0xa3c06b2ab8bcd7, 0x1c502d6fee1b48, 0x11dff6f08f95127, 0x3173301e0fe1e1);
  (0x290d2a17d69446, 0x237d5831ba6ff7, 0x2898ece3350005, 0x2318da9a773883);
  (0x521a542fad288c, 0x237d5831ba6ff7, 0x51a616fb0b944b, 0x234b196618d43d);
  (0xa3c06b2ab8bcd7, 0x236438cbe9a21a, 0xa34c2df6172896, 0x234b196618d43d);
  (0xa3c06b2ab8bcd7, 0x11b21c65f4d10d, 0x1ea58c716e70e03, 0x34fd35cc0da54a);
  (0x629d3e1089b4b5, 0x354893fd800ee1, 0x2091968d178411, 0x1198fd00240330);
  (0xe5cc12ae2aed7b, 0x3e15127d921079, 0x2091968d178411, 0x8cc7e80120198);
  (0x1cb98255c55daf6, 0x3e15127d921079, 0x2091968d178411, 0x4663f400900cc);
  (0x584fa447169301, 0x3ba54731d924f1, 0x68384829e4d9d, 0x4663f400900cc);
  (0xb722cd10cb739f, 0x3dd866d1dda557, 0x68384829e4d9d, 0x2331fa0048066);
  (0x174c91ea43534db, 0x3ef1f6a1dfe58a, 0x68384829e4d9d, 0x1198fd0024033);
  (0x49411ed38494a6, 0x3dd866d1dda557, 0x68384829e4d9d, 0x57fcf100b40ff);
  (0x90e7d07051ea65, 0x3d2b26412cb826, 0xd0709053c9b3a, 0x57fcf100b40ff);
  (0x12d3c3caf29311d, 0x3f946d80d9e20d, 0x1a0e120a793674, 0x57fcf100b40ff);
  (0x217badf0d6c1b31, 0x38895a889f9582, 0x24bd703225e8819, 0x3e092998aad681);
  (0x564d5160b4a6ad, 0x2d89bc68891384, 0x341c2414f26ce8, 0x1b7f0b503844fb);
  (0x564d5160b4a6ad, 0x16c4de344489c2, 0xbe85998a99807d, 0x3243e9847ccebd);
  (0x564d5160b4a6ad, 0xb626f1a2244e1, 0x1d3588475e7a7a7, 0x3da6589e9f139e);
  (0x564d5160b4a6ad, 0x38ec2b82ab5865, 0x4c35709dd70032, 0x3243e9847ccebd);
  (0xac9aa2c1694d5a, 0x38ec2b82ab5865, 0xa282c1fe8ba6df, 0x35980a83941391);
  (0x14f1d64bff4f439, 0x37421b031fb5fb, 0x1450583fd174dbe, 0x35980a83941391);
  (0x4305e0f330fda5, 0x37421b031fb5fb, 0x38ee003053572a, 0x2eefc8856589e9);
  (0x860bc1e661fb4a, 0x37421b031fb5fb, 0x7bf3e1238454cf, 0x3318f1c4429ff2);
  (0x10c1783ccc3f694, 0x37421b031fb5fb, 0x7bf3e1238454cf, 0x198c78e2214ff9);
  (0x2182f079987ed28, 0x37421b031fb5fb, 0x1880b64f0484b63, 0x286749f2a082fa);
  (0x6b3c9b1eb4c908, 0x37421b031fb5fb, 0x4655939429f04b, 0x243e20b3c36cf1);
  (0xd679363d699210, 0x37421b031fb5fb, 0xb1922eb2deb953, 0x2dc01ddb719176);
  (0x1acf26c7ad32420, 0x37421b031fb5fb, 0xb1922eb2deb953, 0x16e00eedb8c8bb);
  (0xec2cfd10456b2, 0x981fd27ae2485, 0x59014fccc4b127, 0x39545bb6871089);
  (0x1d859fa208ad64, 0x981fd27ae2485, 0xc054fe83e31005, 0x3df123e6250816);
  (0xfb603dc7f46acd, 0x287a8f1ac0a890, 0xc054fe83e31005, 0x1ef891f312840b);
  (0x3e157f68cdf451, 0x31fc8c426ecd15, 0x411fbf8d8a8dda, 0x346f26be76e391);
  (0x7f353ef658822b, 0x3335d98072d853, 0x823f7f1b151bb4, 0x346f26be76e391);
  (0xfe6a7decb10456, 0x3335d98072d853, 0x10174be116d9ddf, 0x33d2801f74ddf2);
  (0x1fcd4fbd96208ac, 0x3335d98072d853, 0x10174be116d9ddf, 0x19e9400fba6ef9);
  (0x310f25e618a4bf, 0x18aff2d1b663bb, 0x6832cc15aa7c90, 0x346f26be76e391);
  (0x9941f1fbc3214f, 0x268f8cc816a3a6, 0xd065982b54f920, 0x346f26be76e391);
  (0x9941f1fbc3214f, 0x1347c6640b51d3, 0x1a0cb3056a9f240, 0x346f26be76e391);
  (0x273f5184e083cc, 0x18aff2d1b663bb, 0x4ac34ef20219b7, 0x2f06fa50cbd1a9);
  (0xc0814380a3a51b, 0x3c8b6962f77e6d, 0x7202a076e29d83, 0x23db7691411ab2);
  (0x181028701474a36, 0x3c8b6962f77e6d, 0x7202a076e29d83, 0x11edbb48a08d59);
  (0x47643d2720b669, 0x38221d2c829dd8, 0xe34cbc540a25e, 0xb2b83bf8ab6f7);
  (0x63cdd4b1a1fb25, 0x273c9255cc05e3, 0x80376c3c233fe1, 0x3268161556bcda);
  (0xc79ba96343f64a, 0x273c9255cc05e3, 0x80376c3c233fe1, 0x19340b0aab5e6d);
  (0xe473f6e39be15, 0xe08874b20a776, 0x38d32f15028978, 0x37d992bdb592d3);
  (0xe473f6e39be15, 0x70443a59053bb, 0x7fed9d983ed105, 0x3eddd66345e68e);
  (0x1c8e7edc737c2a, 0x70443a59053bb, 0xf227990a0cc1ad, 0x3b7ff9c7e44233);
  (0x180f013584e2e7f, 0x2f4aa601daf26d, 0x147d3159f67362b, 0x2846625c4a9eb2);
  (0x63d536286c063b, 0x3d532d4cfb99e3, 0x2ab8386f850de7, 0x1a3ddb1129f73c);
  (0xc7aa6c50d80c76, 0x3d532d4cfb99e3, 0x2ab8386f850de7, 0xd1eed8894fb9e);
  (0x18f54d8a1b018ec, 0x3d532d4cfb99e3, 0x2ab8386f850de7, 0x68f76c44a7dcf);
  (0x5334d09ba44ba5, 0x3fe3b82225d284, 0x88b3e7cb435fb, 0x68f76c44a7dcf);
  (0x978ec48145fb7d, 0x3a2fb7223ce07e, 0x11167cf9686bf6, 0x68f76c44a7dcf);
  (0x1426fa63f5a3319, 0x3de52d6692e54a, 0x222cf9f2d0d7ec, 0x68f76c44a7dcf);
  (0x39a6ef4281df09, 0x3755b6a248677b, 0x222cf9f2d0d7ec, 0x20cd51d574750b);
  (0x5bd3e93552b6f5, 0x2c11843bde6e43, 0x4459f3e5a1afd8, 0x20cd51d574750b);
  (0xb7a7d26aa56dea, 0x2c11843bde6e43, 0xa02ddd1af466cd, 0x266f6b08a971a7);
  (0x16f4fa4d54adbd4, 0x2c11843bde6e43, 0x157d5af8599d4b7, 0x294077a243eff5);
  (0x52da4fe4229536, 0x31b39d6f136adf, 0x3b605a94718e19, 0x239e5e6f0ef359);
  (0x8e3aaa7894234f, 0x2aa8fdef112f1c, 0x76c0b528e31c32, 0x239e5e6f0ef359);
  (0x8e3aaa7894234f, 0x15547ef788978e, 0x17bbc14ca5a5bb3, 0x38f2dd66978ae7);
  (0x5510375ca949dc, 0x3fc8dc6f17e265, 0x130e265ea39dd1, 0xe49df77865bcb);
  (0x8e3aaa7894234f, 0x35533d6ad57ae3, 0x261c4cbd473ba2, 0xe49df77865bcb);
  (0x11c7554f128469e, 0x35533d6ad57ae3, 0xb456f735db5ef1, 0x21ce8e712deb57);
  (0x440cf916edd4b0, 0x3fc8dc6f17e265, 0x241164a45f12fd, 0x21ce8e712deb57);
  (0x681e5dbb4ce7ad, 0x30cbb57022e6de, 0x4822c948be25fa, 0x21ce8e712deb57);
  (0xf863f04cc933a1, 0x3a3469293f5ec6, 0x904592917c4bf4, 0x21ce8e712deb57);
  (0xf863f04cc933a1, 0x1d1a34949faf63, 0x218ef156fc1cb89, 0x3ee8c305cd9aba);
  (0x219de7b9aee237, 0x13b180db83377b, 0x6b6304498d28b5, 0x3ee8c305cd9aba);
  (0xae9ed3bceaed23, 0x3325e25e6a04d8, 0x6b6304498d28b5, 0x1f746182e6cd5d);
  (0x18564dc50053e8d, 0x390752b21bcfc9, 0xd6c608931a516a, 0x1f746182e6cd5d);
  (0x2dc19b64a7ef7d, 0x2181916354a405, 0x2af4681d6ba9e2, 0x1f746182e6cd5d);
  (0xae9ed3bceaed23, 0x3fef5af604860e, 0x55e8d03ad753c4, 0x1f746182e6cd5d);
  (0x15a7074329994ab, 0x3f6c0efde91064, 0xabd1a075aea788, 0x1f746182e6cd5d);
  (0x237c01673b0a26, 0x207af9731db8b1, 0x442acf8739ceb1, 0x3e65770db22510);
  (0x8b22d255afe2fd, 0x3fadb4f9f6cb39, 0x442acf8739ceb1, 0x1f32bb86d91288);
  (0x11645a4ab5fc5fa, 0x3fadb4f9f6cb39, 0x442acf8739ceb1, 0xf995dc36c8944);
  (0x22c8b4956bf8bf4, 0x3fadb4f9f6cb39, 0x442acf8739ceb1, 0x7ccaee1b644a2);
  (0x38c668a52b4370, 0x207af9731db8b1, 0x442acf8739ceb1, 0x26ff6a688f572a);
  (0xb5b7a0d1905591, 0x33faaea7656446, 0x442acf8739ceb1, 0x137fb53447ab95);
  (0x13e0d3fe003f2f3, 0x2d7d0c87fa5db8, 0x88559f0e739d62, 0x137fb53447ab95);
  (0x2d6b86ea8902c0, 0x207af9731db8b1, 0x2d750c11f54d51, 0x2081c84924509c);
  (0x884c19e70752d1, 0x30bbdd97afe0ff, 0x2d750c11f54d51, 0x1040e42492284e);
  (0x13e0d3fe003f2f3, 0x38dc4fa9f8f526, 0x2d750c11f54d51, 0x8207212491427);
  (0x1b3e9cb8095923, 0x185a8760d4a48a, 0x2d750c11f54d51, 0x28a23a5b6d64c3);
  (0x1b3e9cb8095923, 0xc2d43b06a5245, 0x7628b4dbf3f3c5, 0x34cf7e0bd7b708);
  (0xaca5ee4c06a60b, 0x269502b6562dc9, 0x7628b4dbf3f3c5, 0x1a67bf05ebdb84);
  (0x1cf749174013fdb, 0x33c8e2394c1b8b, 0x7628b4dbf3f3c5, 0xd33df82f5edc2);
  (0x6cfa72e025648c, 0x3ce25272139b59, 0x17a1bdc59730c1, 0xd33df82f5edc2);
  (0xd9f4e5c04ac918, 0x3ce25272139b59, 0x17a1bdc59730c1, 0x699efc17af6e1);
  (0x1aea491b29b7fe1, 0x3c25e01fb324a1, 0x2f437b8b2e6182, 0x699efc17af6e1);
  (0x4cad046e490613, 0x358bf05e382dc0, 0x2f437b8b2e6182, 0x2101aec766d265);
  (0xab33fb84a5c917, 0x3bc7a6f682e945, 0x5e86f7165cc304, 0x2101aec766d265);
  (0x15667f7094b922e, 0x3bc7a6f682e945, 0x109baf29b028c1b, 0x2e64aadef4ddd5);
  (0x36333c14ff52e2, 0x2f5039c5ed723b, 0x1679c85949b331, 0x139eb2afd8c6f5);
  (0x79a09520dc6c75, 0x351628eabbe38d, 0x2cf390b2936662, 0x139eb2afd8c6f5);
  (0xf3412a41b8d8ea, 0x351628eabbe38d, 0xa69425d36fd2d7, 0x245a6dcd4a5541);
  (0x1e682548371b1d4, 0x351628eabbe38d, 0x199d5501528abc1, 0x2cb84b5c031c67);
  (0x4cad046e490613, 0x29d553c99be3be, 0x334bdb0b51531f, 0x1bfc903e918e1b);
  (0x4cad046e490613, 0x14eaa9e4cdf1df, 0xb344ba84ebac51, 0x30e73a235f7ffa);
  (0x14c9ec3617db877, 0x2d5e46f67db1dc, 0xb344ba84ebac51, 0x18739d11afbffd);
  (0x428627137f8b4b, 0x2d5e46f67db1dc, 0x2e386c5dec95bb, 0x1f85836b735c39);
  (0x428627137f8b4b, 0x16af237b3ed8ee, 0x9ef6ffcf58b6c1, 0x3634a6e6b23527);
  (0x428627137f8b4b, 0xb5791bd9f6c77, 0x13dedff9eb16d82, 0x3634a6e6b23527);
  (0x428627137f8b4b, 0x38b5d8b41d1e53, 0x24f9f04b23aafc, 0x1f85836b735c39);
  (0x850c4e26ff1696, 0x38b5d8b41d1e53, 0x6780175ea33647, 0x2c1dae0fc83d46);
  (0x10a189c4dfe2d2c, 0x38b5d8b41d1e53, 0x6780175ea33647, 0x160ed707e41ea3);
  (0x24098e269e7d001, 0x3d712ee5e4bd1e, 0xcf002ebd466c8e, 0x160ed707e41ea3);
  (0x2084e763123161, 0x115380d61c7fd8, 0x6d7178940fd86b, 0x3a4fb0a51f19a7);
  (0x2084e763123161, 0x8a9c06b0e3fec, 0xdae2f1281fb0d6, 0x3a4fb0a51f19a7);
  (0x2084e763123161, 0x454e035871ff6, 0x1d64ac9b351930d, 0x3ea490daa6399d);
  (0x2084e763123161, 0x15a8610ba39fce, 0x5e0ef523dd1d69, 0x3ea490daa6399d);
  (0x2084e763123161, 0xad43085d1cfe7, 0xbc1dea47ba3ad2, 0x3ea490daa6399d);
  (0x4109cec62462c2, 0xad43085d1cfe7, 0x15eb66f371531b7, 0x3a64c1bbdfa490);
  (0x4109cec62462c2, 0x3624f29d190f83, 0x3922867cfcf631, 0x2f9091360dd4a9);
  (0x7a2c55432158f3, 0x32dac1e9937216, 0x72450cf9f9ec62, 0x2f9091360dd4a9);
  (0x7a2c55432158f3, 0x196d60f4c9b90b, 0xe48a19f3f3d8c4, 0x2f9091360dd4a9);
  (0x2530f19bd57e39d, 0x3dec5a0a357fe5, 0x15eb66f371531b7, 0x247ef9156bc6da);
  (0x77030525de60b9, 0x3dec5a0a357fe5, 0x70b064eb587045, 0x3aa22956afe278);
  (0xee060a4bbcc172, 0x3dec5a0a357fe5, 0x70b064eb587045, 0x1d5114ab57f13c);
  (0x1dc0c14977982e4, 0x3dec5a0a357fe5, 0x70b064eb587045, 0xea88a55abf89e);
  (0x50ee69537f390, 0x34a30b3859d6d, 0x6183b12bb09595, 0x3f6c2191cb02cf);
  (0x7ace3215c85765, 0x27ef8a89b38af8, 0x70b064eb587045, 0x24a559d62ded8b);
  (0x7ace3215c85765, 0x13f7c544d9c57c, 0x15c2efbec7937ef, 0x389d1f1b07b307);
  (0x40bebaa932940, 0x34a30b3859d6d, 0x4e4b11c17591a5, 0x3fa6c2a18317bd);
  (0x7ace3215c85765, 0x31eb6d2c206db6, 0x72b65ac0a204e5, 0x2ea13c789ad049);
  (0x7ace3215c85765, 0x18f5b6961036db, 0xe56cb5814409ca, 0x2ea13c789ad049);
  (0x255d74bc29d0ff9, 0x3cc1301d65ba6d, 0x1603ae7970c612f, 0x23cb7987558392);
  (0x1bcc60266a98e1, 0xe1ff3a4caea24, 0x6a9e836b7bb265, 0x362cceb65a7f93);
  (0x1bcc60266a98e1, 0x70ff9d2657512, 0xf10966fd61fdab, 0x3d3cc888bff4a5);
  (0x1bcc60266a98e1, 0x387fce932ba89, 0x1e212cdfac3fb56, 0x3d3cc888bff4a5);
  (0x1bcc60266a98e1, 0x11a7f08dfda4ad, 0x4a2d0f79d1eb2a, 0x2f1cd4e3f50a81);
  (0x9d922fed11b5cd, 0x320a5346f6fc44, 0x65f96fa03c840b, 0x206262b8f95797);
  (0x9d922fed11b5cd, 0x190529a37b7e22, 0x169850f2d8abde3, 0x39678c5c74d5b9);
  (0x1f83a32f69f129, 0x190529a37b7e22, 0x4de45282d14372, 0x3dd7470ef0bd6b);
  (0x1f83a32f69f129, 0xc8294d1bdbf11, 0x9bc8a505a286e4, 0x3dd7470ef0bd6b);
  (0x3f07465ed3e252, 0xc8294d1bdbf11, 0x1395ad4f2b43cb1, 0x3e321793d2bc60);
  (0x3f07465ed3e252, 0x3e8ce818b4bb55, 0x18da99f7a4eabf, 0x18aa591e997f2d);
  (0x7e0e8cbda7c4a4, 0x3e8ce818b4bb55, 0x57e1e05678cd11, 0x2b9ba09ba71d41);
  (0xfc1d197b4f8948, 0x3e8ce818b4bb55, 0xd5f06d142091b5, 0x3514445a2dec4b);
  (0x1f83a32f69f1290, 0x3e8ce818b4bb55, 0x1d20d868f701afd, 0x39d096397153d0);
  (0x262cac672ef793, 0x17ad995c510599, 0x55935ed4d9d3e2, 0x3514445a2dec4b);
  (0x7bc00b3c08cb75, 0x2660eedb3f78f2, 0xab26bda9b3a7c4, 0x3514445a2dec4b);
  (0x7bc00b3c08cb75, 0x1330776d9fbc79, 0x1564d7b53674f88, 0x3514445a2dec4b);
  (0x42de6852088fe3, 0x33d854a7535452, 0x12f5e0f8aabe86, 0xeb3557eee7359);
  (0x8eb5ec34b389fb, 0x3752d5518690db, 0x25ebc1f1557d0c, 0xeb3557eee7359);
  (0x11d6bd8696713f6, 0x3752d5518690db, 0xb4a1ae26090707, 0x230315683a821a);
  (0x14f53ba712cf63, 0x144fbfe94c0ec1, 0x36e2483b982ab5, 0x3530eb915c31fc);
  (0x29ea774e259ec6, 0x144fbfe94c0ec1, 0x60ccbf89bdc97b, 0x2ee835b1fa27bf);
  (0x53d4ee9c4b3d8c, 0x144fbfe94c0ec1, 0xde8c25742ea5cd, 0x35ebbab6ef2a01);
  (0x13261141079e359, 0x251dbd501d9c61, 0x1bd184ae85d4b9a, 0x35ebbab6ef2a01);
  (0x21885f71b7b238, 0x144fbfe94c0ec1, 0x692ed7662bb609, 0x3fb63318cbb55f);
  (0x4310bee36f6470, 0x144fbfe94c0ec1, 0xcdc7f5bb52ccb1, 0x3e52b96a57f0d1);
  (0x110d8b49ec23121, 0x29513ca9d1ffc9, 0x19b8feb76a59962, 0x3e52b96a57f0d1);
  (0x53b28a0babefb5, 0x3f5f2d510cac84, 0xeabe9d00ecad, 0xb1bcd739e247);
  (0x870c3c63dfb58d, 0x33203e32db1606, 0x88e1b99de18ee7, 0x33d1fb0a14f84d);
  (0x870c3c63dfb58d, 0x19901f196d8b03, 0x111c3733bc31dce, 0x33d1fb0a14f84d);
  (0x438f08da02109d, 0x3ff0be2656658b, 0xbbcbb0cd8a24, 0xb1bcd739e247);
  (0x865070b3122b69, 0x3f8f6f53f4ea64, 0x17797619b1448, 0xb1bcd739e247);
  (0x865070b3122b69, 0x1fc7b7a9fa7532, 0x893f9f764853f9, 0x20797481345779);
  (0x198cfaf9fa2d35b, 0x305d5056319212, 0x1127f3eec90a7f2, 0x20797481345779);
  (0x6b518f48b98309, 0x3f7b53d2bed09c, 0x12c791ae276a0, 0xb1bcd739e247);
  (0x877ce9cdf4a209, 0x281284001603a2, 0x89d5dc03b98f49, 0x28c440d74fe5e9);
  (0x877ce9cdf4a209, 0x140942000b01d1, 0x19b28a1d567c09b, 0x3ccd82d75ae7ba);
  (0x3541963cdfe1ea, 0x2760c728dc215b, 0x523b539114c01f, 0x3ccd82d75ae7ba);
  (0x6a832c79bfc3d4, 0x2760c728dc215b, 0x523b539114c01f, 0x1e66c16bad73dd);
  (0xbcbe800ad483f3, 0x22e3c44a44ca9c, 0xa476a72229803e, 0x1e66c16bad73dd);
  (0x2a9ade97198188, 0x2760c728dc215b, 0x3cede44587ff5b, 0x38507ff8c390fb);
  (0x6788c2dca180e3, 0x2fd8a390cfd92b, 0x79dbc88b0ffeb6, 0x38507ff8c390fb);
  (0xcf1185b94301c6, 0x2fd8a390cfd92b, 0xe1648b67b17f99, 0x341491c4c9b513);
  (0x19e230b7286038c, 0x2fd8a390cfd92b, 0x1b0761120f4815f, 0x31f69aaaccc71f);
  (0x4f299ac0d18125, 0x2dbaac76d2eb37, 0x617ca06f3ffef8, 0x38507ff8c390fb);
  (0x9e533581a3024a, 0x2dbaac76d2eb37, 0xb0a63b3011801d, 0x33059637cb3e19);
  (0x14ef970b1b48267, 0x306021574f14a8, 0x1614c766023003a, 0x33059637cb3e19);
  (0x42feb0238a807b, 0x306021574f14a8, 0x5551b5d1f8fe4e, 0x3d9b69b9bbe3dd);
  (0x42feb0238a807b, 0x183010aba78a54, 0xaaa36ba3f1fc9c, 0x3d9b69b9bbe3dd);
  (0x42feb0238a807b, 0xc180855d3c52a, 0x15546d747e3f938, 0x3d9b69b9bbe3dd);
  (0xd66233a4ee67f, 0xc180855d3c52a, 0x3be5f37f6b10cd, 0x361061964c46df);
  (0xd66233a4ee67f, 0x60c042ae9e295, 0x85320a39250819, 0x3c1c65c1362974);
  (0x1acc46749dccfe, 0x60c042ae9e295, 0x10b2f6a803a090f, 0x3c4a47b72c81a3);
  (0x35988ce93b99fc, 0x60c042ae9e295, 0x231f6718301d7f9, 0x3f673ac79c9f05);
  (0x35988ce93b99fc, 0x1e3c14d6916ce9, 0x503c288e430201, 0x2d432e46def746);
  (0x6b3119d27733f8, 0x1e3c14d6916ce9, 0xbb6d4260ba35f9, 0x34ddabfa00e88c);
  (0xd66233a4ee67f0, 0x1e3c14d6916ce9, 0x191cf7605a89de9, 0x38aaead391e12f);
  (0x3044a0fb6d51fb, 0x220953b022658c, 0x459450b2a671ff, 0x31106d206fefe9);
  (0x3044a0fb6d51fb, 0x1104a9d81132c6, 0x8b28a1654ce3fe, 0x31106d206fefe9);
  (0x3044a0fb6d51fb, 0x88254ec089963, 0x14695e3c60719f7, 0x3992c20c78894c);
  (0x3044a0fb6d51fb, 0x2a8ba89c2afeef, 0x245b335d8ca0ce, 0x200bc3485ebd23);
  (0x608941f6daa3f6, 0x2a8ba89c2afeef, 0x549fd458f9f2c9, 0x254bb5f244de09);
  (0xb529164fd496bf, 0x27ebaf4737ee7c, 0xa93fa8b1f3e592, 0x254bb5f244de09);
  (0xb529164fd496bf, 0x13f5d7a39bf73e, 0x207a867b3bc61e3, 0x39418d95e0d547);
  (0x71760608a63aeb, 0x3e81803fc6f62d, 0x43b310472e5bd4, 0x254bb5f244de09);
  (0xb529164fd496bf, 0x31e69b1905ea1b, 0x8766208e5cb7a8, 0x254bb5f244de09);
  (0x16a522c9fa92d7e, 0x31e69b1905ea1b, 0x13c8f36de314e67, 0x2b992885a56412);
  (0x2dc2f5c177df17, 0x1f833ce0e29e2d, 0x3f4fd7c609dc7b, 0x2b992885a56412);
  (0x9ad5c348f99aa9, 0x354fd123b55036, 0x3f4fd7c609dc7b, 0x15cc9442d2b209);
  (0x1197572d50d539f, 0x30747cd4ad5a24, 0x7e9faf8c13b8f6, 0x15cc9442d2b209);
  (0x384ab09102aa53, 0x30747cd4ad5a24, 0x4654fefb110ea3, 0x3c8a6879702009);
  (0x384ab09102aa53, 0x183a3e6a56ad12, 0x8ca9fdf6221d46, 0x3c8a6879702009);
  (0x384ab09102aa53, 0xc1d1f352b5689, 0x11953fbec443a8c, 0x3c8a6879702009);
  (0x709561220554a6, 0xc1d1f352b5689, 0x232c96ec1518e2b, 0x3c8e0241a4685b);
  (0x709561220554a6, 0x3c919c09d8b0ad, 0x5a0a691fdc0b81, 0x3070e30c7911d2);
  (0xe12ac2440aa94c, 0x3c919c09d8b0ad, 0x5a0a691fdc0b81, 0x183871863c88e9);
  (0x13b352b63e6b4cd, 0x2a6506c80a9ccb, 0xb414d23fb81702, 0x183871863c88e9);
  (0x3f0aa2472e2429, 0x2a6506c80a9ccb, 0x35ff8db15bceb0, 0x24502a0f1972f7);
  (0x7e15448e5c4852, 0x2a6506c80a9ccb, 0x750a2ff889f2d9, 0x275a986b9207e1);
  (0xfc2a891cb890a4, 0x2a6506c80a9ccb, 0xf31f7486e63b2b, 0x28dfcf99ce5256);
  (0x1cf041df6dde5, 0x185372e3c4a75, 0x4aeaf5a4379efa, 0x3efa0235208f2d);
  (0x39e083bedbbca, 0x185372e3c4a75, 0x95129e70c128a7, 0x3ea7ec4e643df5);
  (0xf6bd7cc2d3f6f5, 0x33da5f17600c26, 0xef816c4af87f61, 0x325527e923c1b1);
  (0xf6bd7cc2d3f6f5, 0x19ed2f8bb00613, 0x1df02d895f0fec2, 0x325527e923c1b1);
  (0x315918f3c3fe31, 0x19ed2f8bb00613, 0x543a10f7d10d3a, 0x2c404b303297dd);
  (0x62b231e787fc62, 0x19ed2f8bb00613, 0xe8455bd31d07cd, 0x3d03ece9a1550b);
  (0xc56463cf0ff8c4, 0x19ed2f8bb00613, 0x14af78dbaa5042f, 0x2b788e3aa8ad8f);
  (0x41015e51345d7e, 0x2ab0d1451ec341, 0x423182beedcda3, 0x2b788e3aa8ad8f);
  (0x8332e110222b21, 0x2b14afbfe3b868, 0x8463057ddb9b46, 0x2b788e3aa8ad8f);
  (0x8332e110222b21, 0x158a57dff1dc34, 0x108c60afbb7368c, 0x2b788e3aa8ad8f);
  (0x194a0fdea5aee9, 0x14c29aea67f1e6, 0x34f46898be3e1c, 0x2b788e3aa8ad8f);
  (0x8332e110222b21, 0x35d9dbafdca682, 0x69e8d1317c7c38, 0x2b788e3aa8ad8f);
  (0x8332e110222b21, 0x1aecedd7ee5341, 0xd3d1a262f8f870, 0x2b788e3aa8ad8f);
  (0x25d6a45935f79d3, 0x3e1fabe139d3a9, 0x1570483731b2391, 0x2332be094b8068);
  (0x3896400e6740eb, 0x1d086b1bc51f0d, 0x449a80b09f071d, 0x2332be094b8068);
  (0xb5c700cd6d88f3, 0x2ea1ca206adf41, 0x449a80b09f071d, 0x11995f04a5c034);
  (0x1b028824b7a1903, 0x376e79a2bdbf5b, 0x449a80b09f071d, 0x8ccaf8252e01a);
  (0x3afd802ed8cef5, 0x25d51a9e17ff27, 0x449a80b09f071d, 0x2bff6d8b9e6082);
  (0xba95810e50a507, 0x3bd4d163e72f68, 0x449a80b09f071d, 0x15ffb6c5cf3041);
  (0x143ca826f8eb341, 0x33ea1f77c2c7f5, 0x893501613e0e3a, 0x15ffb6c5cf3041);
  (0x255119cfa9ba9b, 0x1dea68b1f397b4, 0x3e92cdc1ea9904, 0x3229c07924c1dd);
  (0x255119cfa9ba9b, 0xef53458f9cbda, 0x7d259b83d53208, 0x3229c07924c1dd);
  (0x255119cfa9ba9b, 0x77a9a2c7ce5ed, 0x11f9c50d7541eab, 0x39a45aa5a1a7ca);
  (0x4aa2339f537536, 0x77a9a2c7ce5ed, 0x24a251f54a1f383, 0x3abc9604c46b99);
  (0xeed3d8643e43e, 0x77a9a2c7ce5ed, 0x7b6aac12695001, 0x3dd642b4b6424a)].
