(** Certificates for DigitsTables: for every binary exponent from -1126 on, the denominators of the two neighbours of
    twice the cached power in the Farey sequence. Generated from the cache of the code. *)
From Coq Require Import ZArith List.
Import ListNotations.
Local Open Scope Z_scope.

Definition certs_digits : list (Z * Z) := [
  (0xae0294ce043c1, 0x17f1ed95e8a50a); (0x16d92017d49646, 0xbf8f6caf45285); (0x176586d6de9da8, 0xbf8f6caf45285); (0xbb2c36b6f4ed4, 0x17abba3663a159);
  (0xb6c900bea4b23, 0x183820f56da8bb); (0x1d3ee88c964512, 0x11d25880abf9ef); (0xe9f74464b2289, 0x11d25880abf9ef); (0x13a63bdd73bee0, 0x11d25880abf9ef);
  (0x1ba5766f65d95f, 0x11d25880abf9ef); (0x16bbe77808e9a7, 0x11d25880abf9ef); (0x1ba5766f65d95f, 0x1ebb2209fb0426); (0x1ba5766f65d95f, 0xf5d9104fd8213);
  (0x158183ba31adb9, 0xf5d9104fd8213); (0x158183ba31adb9, 0x126f8a5f9797e6); (0x1ba5766f65d95f, 0xc4b97aa636c40); (0x1ba5766f65d95f, 0x625cbd531b620);
  (0x1eb85c59feb46f, 0x312e5ea98db10); (0x157faa9a34233f, 0xf5e7d94fc4750); (0x1d2ee964b246e7, 0x7af3eca7e23a8); (0x1d2ee964b246e7, 0x3d79f653f11d4);
  (0x1d2ee964b246e7, 0x13361cfa3b5924); (0x1d2ee964b246e7, 0x99b0e7d1dac92); (0x1d2ee964b246e7, 0x4cd873e8ed649); (0x10fe3851a08e98, 0x15cbbf902f64e1);
  (0xc30b11311b84f, 0x1803a438ca2f6d); (0x1e4adbb8ffac2d, 0x121a2aa5edf3de); (0x1e4adbb8ffac2d, 0x90d1552f6f9ef); (0x1b84fde63e2efe, 0x5e97992dc3b8f);
  (0xdc27ef31f177f, 0x13abf885fb530e); (0x17987b361cc106, 0x9d5fc42fda987); (0x1f7180965f9cf6, 0x5e97992dc3b8f); (0x15a239de0c0a0a, 0x1b8bb370e84599);
  (0xad11cef060505, 0x1b8bb370e84599); (0xad11cef060505, 0x1dff851efd2a54); (0x1cfdaee84ab83b, 0x85d4b40f1204a); (0x1cfdaee84ab83b, 0x42ea5a0789025);
  (0x1d221b25cb549f, 0x42ea5a0789025); (0x1d221b25cb549f, 0x14e93c225ad0b9); (0x1d221b25cb549f, 0x1905aba41312ac); (0x1d221b25cb549f, 0xc82d5d2098956);
  (0x41c6f81b841f3, 0x1daab10c6d9f16); (0x41c6f81b841f3, 0x1f47168d17d757); (0x11b1c307680ca5, 0x1f47168d17d757); (0x11b1c307680ca5, 0x187c6cca3ff1fe);
  (0xf0388c648693f, 0x187c6cca3ff1fe); (0x1b41bf2b68623e, 0xc3e36651ff8ff); (0x19df15fad42a1e, 0xc3e36651ff8ff); (0x19df15fad42a1e, 0x978e403f788bf);
  (0xcef8afd6a150f, 0x16686f01619dce); (0xcef8afd6a150f, 0x1823c27e1ae3f6); (0x1b9a69778d7046, 0x978e403f788bf); (0xdcd34bbc6b823, 0x174618bfbe40e2);
  (0x1970411ba5d894, 0xba30c5fdf2071); (0xcb8208dd2ec4a, 0x185b2cedb20cbb); (0xee248e9ba83fc, 0x185b2cedb20cbb); (0x1fcc51628f4eb9, 0x185b2cedb20cbb);
  (0x1c13bf2820adba, 0x185b2cedb20cbb); (0x129adb242924fb, 0x14a29ab3436bbc); (0x1cec287dcadad9, 0xa514d59a1b5de); (0x1cec287dcadad9, 0x528a6acd0daef);
  (0x1cec287dcadad9, 0x19cb41601446ab); (0x1b5bb4eeef90c2, 0x19cb41601446ab); (0xdadda7777c861, 0x19cb41601446ab); (0x190738edb4a17, 0x1eda6ef0c7f7bd);
  (0x190738edb4a17, 0x1fd9f4d46285d0); (0x117d6df90c8cff, 0xfecfa6a3142e8); (0x1973eb2e252e73, 0x7f67d3518a174); (0x1fb5b9699256cf, 0x7f67d3518a174);
  (0x1fb5b9699256cf, 0x3fb3e9a8c50ba); (0x1fb5b9699256cf, 0x1fd9f4d46285d); (0x1db81a1c4c2e72, 0x9f41c825ec9d1); (0x18d0299084e10a, 0x9f41c825ec9d1);
  (0x165c314aa13a56, 0x9f41c825ec9d1); (0xedc0d0e261739, 0x117440bed9ecee); (0x17962d6d930db0, 0x8ba205f6cf677); (0xbcb16b6c986d8, 0x14853716367d4f);
  (0x5e58b5b64c36c, 0x1a6ac2719b40bb); (0x1d7bb8c8f7d11c, 0xe9fabbad1b9e3); (0x1d5d881f4da271, 0xe9fabbad1b9e3); (0x1d5d881f4da271, 0x15fe99ed0fae2a);
  (0x163afb40640b80, 0xe9fabbad1b9e3); (0x19bd295b03bfa3, 0xe9fabbad1b9e3); (0x19bd295b03bfa3, 0x142e6a8aeabcc3); (0x1f4be82b1cc283, 0x3822e1a9fb423);
  (0x1f4be82b1cc283, 0x11670b22de3b53); (0x185979a6fd7eeb, 0x11670b22de3b53); (0x14e04264eddd1f, 0x11670b22de3b53); (0x1bd2b0e90d20b7, 0xa749c9ebef7bb);
  (0x1bd2b0e90d20b7, 0x1323a6c3e60c39); (0x177b2bd6799678, 0x1323a6c3e60c39); (0x15b5995ce1b33b, 0x1323a6c3e60c39); (0x146ca01063dfba, 0x1323a6c3e60c39);
  (0x1d59f6cc17fc16, 0x1323a6c3e60c39); (0xa36500831efdd, 0x1836119a20ae12); (0xa36500831efdd, 0x165158d54246e6); (0x1f954c7b05032d, 0x155efc72d31350);
  (0x1f954c7b05032d, 0xaaf7e396989a8); (0x1fa72a47120dce, 0x792e313799cb); (0x1a3d8d5e503e59, 0x1ab6bb8f87d824); (0x1a3d8d5e503e59, 0xd5b5dc7c3ec12);
  (0x1a3d8d5e503e59, 0xe4dba2a331fa8); (0x1a3d8d5e503e59, 0x726dd15198fd4); (0x1a3d8d5e503e59, 0x1dd0fbe8dd0643); (0x1a3d8d5e503e59, 0x11e128b4bfe792);
  (0x1a3d8d5e503e59, 0x8f0945a5ff3c9); (0x1a3d8d5e503e59, 0x119710dc581911); (0x1a3d8d5e503e59, 0x15ea4f1d542bb5); (0x15a03744ec5d34, 0x119710dc581911);
  (0x1c672c7ece47ab, 0x119710dc581911); (0x16ff1ead93305e, 0x119710dc581911); (0x1b084516277481, 0x119710dc581911); (0x164faaf93fc6c9, 0x119710dc581911);
  (0x13f35deacbefed, 0x119710dc581911); (0x13f35deacbefed, 0x1c193a8d54ad8e); (0x13f35deacbefed, 0xe0c9d46aa56c7); (0x13f35deacbefed, 0x10fffd98bb235a);
  (0x13f35deacbefed, 0x1c735cb729819a); (0x1fc0df330f2239, 0x87ffecc5d91ad); (0x1ca06dcc13eba0, 0x87ffecc5d91ad); (0x1f50347ec5192a, 0x87ffecc5d91ad);
  (0x5d03819ac6423, 0x1edf89ca7b101b); (0x1df851256c8265, 0x1828190bc01e42); (0x1df851256c8265, 0xc140c85e00f21); (0x1df851256c8265, 0x1e6bed77f3c940);
  (0x1df851256c8265, 0xf35f6bbf9e4a0); (0x1df851256c8265, 0x79afb5dfcf250); (0x1df851256c8265, 0x3cd7daefe7928); (0xec25a69729dc5, 0x1303746af85dc8);
  (0x1844149eeecca9, 0x981ba357c2ee4); (0x1d04f1b9ace41b, 0x4c0dd1abe1772); (0x1d04f1b9ace41b, 0x17c45185b6753a); (0x1d04f1b9ace41b, 0xbe228c2db3a9d);
  (0x14738d3e440f5c, 0xbe228c2db3a9d); (0x1d04f1b9ace41b, 0xf32ed0a4da07b); (0x1d04f1b9ace41b, 0x161bef61fd424b); (0x1990708dd51333, 0x161bef61fd424b);
  (0x1990708dd51333, 0x17d62ff7e92abf); (0x1ebf324f98cc8f, 0x161bef61fd424b); (0x1a6d90d8cb076d, 0x161bef61fd424b); (0x1a6d90d8cb076d, 0x1844c01d6424dc);
  (0xacc13a9026cd5, 0x1844c01d6424dc); (0x16ee73b7b47f43, 0xc22600eb2126e); (0x1cffa3bf0d887a, 0x6113007590937); (0x16ee73b7b47f43, 0x1e55f024bd2e13);
  (0x1aa231ee38d6ab, 0x1e55f024bd2e13); (0x1c7c11097b025f, 0x1e55f024bd2e13); (0x1d6900971c1839, 0x1e55f024bd2e13); (0x1b8f217bd9ec85, 0x4a0adc4256d42);
  (0x1ddf785deca326, 0x25056e212b6a1); (0xeefbc2ef65193, 0x11401311090834); (0x16ee73b7b47f43, 0x11401311090834); (0x1f8e7d4039035d, 0x8a0098884841a);
  (0x1f8e7d4039035d, 0x45004c442420d); (0xe4e6a2f2ffb29, 0x159017d54b4a41); (0x11ef41023da2b5, 0x159017d54b4a41); (0x11ef41023da2b5, 0x13bfac6bc4767b);
  (0x1e6d3fc7e6ca18, 0x13bfac6bc4767b); (0xf369fe3f3650c, 0x13bfac6bc4767b); (0x1b5afc5dbe2901, 0x13bfac6bc4767b); (0x178d5464c14fbe, 0x13bfac6bc4767b);
  (0x3cda7f8fcd943, 0x1e488e990f09b1); (0x3cda7f8fcd943, 0x1c741333fc7d43); (0x1b89d58173370c, 0x17bc2d88765dc9); (0x130447dcf03e4f, 0x1020dd967cab43);
  (0x119292b9b674c9, 0x1020dd967cab43); (0x119292b9b674c9, 0x10d9b828199006); (0x1475fd002a07d5, 0x10d9b828199006); (0x1ce2d91436cfd8, 0x86cdc140cc803);
  (0x1f4b24b234f7f2, 0x86cdc140cc803); (0x18126e6d2743fc, 0x86cdc140cc803); (0x1baeb34537bbcb, 0x86cdc140cc803); (0x1a7aa3c0af09ea, 0x86cdc140cc803);
  (0x1e170a087114fb, 0x86cdc140cc803); (0x1f4b198cf9c6dc, 0x39c6647c20b11); (0x1341f30e3eee7f, 0x16de595600f990); (0x1341f30e3eee7f, 0x1eb11fb93f6b47);
  (0x7d2c6633e71b7, 0x19e0c5ca08a90c); (0x7d2c6633e71b7, 0x1c95efab8137f4); (0x161dbe38ff0db1, 0xe4af7d5c09bfa); (0x1d433a23df5bae, 0x7257beae04dfd);
  (0x161dbe38ff0db1, 0xd9dad5d627840); (0x161dbe38ff0db1, 0x1cec94e7b049d1); (0x161dbe38ff0db1, 0x1985299057abc1); (0xf4ee78a4dd191, 0x110518b4bb1650);
  (0x17d173e4ab5cb9, 0x8828c5a5d8b28); (0x17d173e4ab5cb9, 0x1c12ba11da224d); (0xf4ee78a4dd191, 0x15465ee1e9dbe4); (0xf4ee78a4dd191, 0x19f216fb42bf83);
  (0x14a07f42c8488a, 0x19f216fb42bf83); (0xa503fa1642445, 0x19f216fb42bf83); (0x4fea7e8e9ad4c, 0x1f969e834e0029); (0x27f53f474d6a6, 0x1f969e834e0029);
  (0x13fa9fa3a6b53, 0x1f969e834e0029); (0x63e51e324189f, 0x1e56f4891394d6); (0x1ba81e0ad1fba9, 0x1569cc27ade30a); (0x1ba81e0ad1fba9, 0xab4e613d6f185);
  (0x173189da1f22c3, 0xf2b7a4489ca6b); (0x132e820f547697, 0xf2b7a4489ca6b); (0x132e820f547697, 0x112cfe29ef2081); (0x132e820f547697, 0x122dc01ca1cb8c);
  (0x173189da1f22c3, 0x122dc01ca1cb8c); (0x173189da1f22c3, 0x916e00e50e5c6); (0x1bbcf9e14795a6, 0x48b70072872e3); (0x12a619d2f6afe0, 0x16b93023ca3e6f);
  (0x9530ce97b57f0, 0x16b93023ca3e6f); (0x1b62b69887ea67, 0x16b93023ca3e6f); (0x174fa047b45bd8, 0xd66233a4ee67f); (0x190df35e29146b, 0xd66233a4ee67f);
  (0x190df35e29146b, 0x133a0b4c3bfd75); (0x190df35e29146b, 0x1623ff553288f0); (0x1bf7e7671f9fe6, 0xd66233a4ee67f); (0xdfbf3b38fcff3, 0x1b6216eddeb672);
  (0xdfbf3b38fcff3, 0x1bacff2a7f2b2c); (0x1c42cfa3c014a0, 0xd66233a4ee67f); (0xe2167d1e00a50, 0x1b878b0c2ef0cf); (0x710b3e8f00528, 0x1b878b0c2ef0cf);
  (0x15ed6052613349, 0xd66233a4ee67f); (0x11a9c1c6580ce4, 0x1f0fe500a6f363); (0x8d4e0e32c0672, 0x1f0fe500a6f363); (0x46a7071960339, 0x1f0fe500a6f363);
  (0x16143237ee101d, 0x1aa5748f10f02a); (0x16143237ee101d, 0xd52ba47887815); (0x1f06308743bc2e, 0xd52ba47887815); (0x460bbf832cc04, 0x1f97c3a413f849);
  (0x2305dfc196602, 0x1f97c3a413f849); (0x1182efe0cb301, 0x1f97c3a413f849); (0x578eaf63f7f05, 0x1b3707abe12c45); (0x578eaf63f7f05, 0x1b49cf3d8f53af);
  (0x15da481026e85f, 0x10615d19e7695a); (0x1e0af69d1a9d0c, 0x830ae8cf3b4ad); (0xda999833333b2, 0x1b49cf3d8f53af); (0x6d4ccc19999d9, 0x1b49cf3d8f53af);
  (0x1eb8e782c7aa76, 0x17e41ac12e109d); (0x1118b1c86b8a79, 0x110f4dff9476c4); (0x19a058c835c5db, 0x887a6ffca3b62); (0x1de42c481ae38c, 0x443d37fe51db1);
  (0x1de42c481ae38c, 0x1553217f799475); (0xef216240d71c6, 0x1553217f799475); (0x7790b1206b8e3, 0x1ccc2c91804d58); (0x15df215ac6df8f, 0xe661648c026ac);
  (0x1e702c23682ea6, 0x6ed0b36b96dc9); (0x1d122c7f26f2e5, 0x6ed0b36b96dc9); (0x1d122c7f26f2e5, 0x11ff9bdaf03057); (0xf381611b41753, 0x18eca711a99e20);
  (0x1bae699a88e663, 0xc765388d4cf10); (0x1bae699a88e663, 0x63b29c46a6788); (0xf381611b41753, 0x1f27d0d61405a8); (0x1ecbfe7cbe1a27, 0xf93e86b0a02d4);
  (0x1ecbfe7cbe1a27, 0x7c9f43585016a); (0x1ecbfe7cbe1a27, 0x3e4fa1ac280b5); (0x1ae70461fb9972, 0x1378e285cc8389); (0xd738230fdccb9, 0x1378e285cc8389);
  (0x1de9b48c62f4da, 0x1076325b652821); (0x11def3e2c5873a, 0x1076325b652821); (0x1965ac4cc7ebbe, 0x1076325b652821); (0x1d290881c91e00, 0x1076325b652821);
  (0xcb2d62663f5df, 0x1f83a32f69f129); (0xcb2d62663f5df, 0x161b3caae6f384); (0x17c0747bd76fa1, 0xb0d9e557379c2); (0x17c0747bd76fa1, 0x1f83a32f69f129);
  (0x17c0747bd76fa1, 0x1ba20bd5a0b065); (0x17c0747bd76fa1, 0x19b14028bc1003); (0x17c0747bd76fa1, 0x18b8da5249bfd2); (0x17c0747bd76fa1, 0x1c9a71ac130096);
  (0x17c0747bd76fa1, 0xe4d38d609804b); (0x17c0747bd76fa1, 0x1306d6a8f077f6); (0x17c0747bd76fa1, 0x17e0d3d92c08eb); (0x17c0747bd76fa1, 0x17d0a42a81bc46);
  (0x17c0747bd76fa1, 0xbe8521540de23); (0x1ff864f039cdab, 0x102faeaa4ca5); (0x1dac85af22b860, 0x1dbcb55dcd0505); (0xed642d7915c30, 0x1dbcb55dcd0505);
  (0x76b216bc8ae18, 0x1dbcb55dcd0505); (0x76b216bc8ae18, 0x1dfd7418763799); (0x3b590b5e4570c, 0x1dfd7418763799); (0x1dac85af22b86, 0x1fd83c7368631f);
  (0x945e9c6bad99e, 0x1a47e36291e08d); (0x4a2f4e35d6ccf, 0x1eead845ef4d5c); (0x4a2f4e35d6ccf, 0x1d5e4acd0fed1b); (0x172ec870d3200b, 0xad2773f9a39df);
  (0x172ec870d3200b, 0x11009fd836acf5); (0x172ec870d3200b, 0x1417b42484e680); (0x172ec870d3200b, 0xa0bda12427340); (0x103a02aadee656, 0x11009fd836acf5);
  (0x81d01556f732b, 0x191da12da62020); (0x14abd1ec42833b, 0xc8ed096d31010); (0x1cc8d341b1f666, 0x11009fd836acf5); (0xe6469a0d8fb33, 0x1f6509790fa828);
  (0x1e16ee5d60cf47, 0xfb284bc87d414); (0x1e16ee5d60cf47, 0x124ebaf3e585d6); (0x1e16ee5d60cf47, 0x9275d79f2c2eb); (0x1e16ee5d60cf47, 0x139f25eba9c919);
  (0x1e16ee5d60cf47, 0x18db0a24854c30); (0x1e16ee5d60cf47, 0x3eb7941173fd4); (0x1e16ee5d60cf47, 0x1f5bca08b9fea); (0x1e16ee5d60cf47, 0x1f11ccada69f3c);
  (0x1d1c100d1aff52, 0x4e657915d0fc9); (0xe8e08068d7fa9, 0x13745f97ea8f72); (0xe8e08068d7fa9, 0x184837d282c762); (0x1835b87bbdef89, 0x184837d282c762);
  (0x1835b87bbdef89, 0xc241be94163b1); (0x1e51061bc10d4e, 0xc241be94163b1); (0x1b4c9ef721ea58, 0xc241be94163b1); (0x122cea327fa99d, 0x1543d0ade3a46c);
  (0x1cced289717bd3, 0xaa1e856f1d236); (0x1cced289717bd3, 0x550f42b78e91b); (0x122cea327fa99d, 0x1a94c4d95c8d87); (0x122cea327fa99d, 0x1660d785ee1b92);
  (0x1d5d55f576b766, 0xb306bc2f70dc9); (0x122cea327fa99d, 0x13984669d3f1b3); (0x122cea327fa99d, 0x12e2984e29cda8); (0x1b9e3659949071, 0x9714c2714e6d4);
  (0x1b9e3659949071, 0x4b8a6138a736a); (0x16e590460a1d07, 0x179b3e61b44112); (0x16e590460a1d07, 0xbcd9f30da2089); (0x115997bb721ec8, 0x1d2736ec4c3f51);
  (0x1bbbdab4f7f73b, 0x641a6a642224a); (0x1edcae08190860, 0x320d353211125); (0x15affdaa4ea67a, 0x18d0d0fd6fb79f); (0x128f2a572d9555, 0xfa4209fa555b9);
  (0x128f2a572d9555, 0x1119a57b697587); (0x128f2a572d9555, 0x11d467e94b856e); (0x1b795e4bd3580c, 0x8ea33f4a5c2b7); (0x1e6468035b97a8, 0x8ea33f4a5c2b7);
  (0x181c67f6538e8b, 0x8ea33f4a5c2b7); (0x196d81ea226b58, 0x8ea33f4a5c2b7); (0x1d134e0f8cbadb, 0x8ea33f4a5c2b7); (0x1be8f4f6bf0180, 0x8ea33f4a5c2b7);
  (0x1fc8e264ab062e, 0x8ea33f4a5c2b7); (0x50a4686b9be09, 0x1d7430330f9378); (0x18cea526fb45ce, 0x13c45ea04187c5); (0xc6752937da2e7, 0x13c45ea04187c5);
  (0xc6752937da2e7, 0x1c7d2b2d5d383d); (0x50a4686b9be09, 0x1c7d2b2d5d383d); (0x10c3b8da0b7b23, 0x1c7d2b2d5d383d); (0x16a07203b459b0, 0x1c7d2b2d5d383d);
  (0x10c3b8da0b7b23, 0x1d4f9dd04c58c1); (0x10c3b8da0b7b23, 0x1709ab552be9f2); (0x1c488e84a1701c, 0xb84d5aa95f4f9); (0x1a3a6fed4b9ed2, 0x645f27b206ecf);
  (0x13632a71c63e38, 0x19a91cece6ad07); (0x9b19538e31f1c, 0x19a91cece6ad07); (0x1e81e789583c95, 0x19a91cece6ad07); (0x183bf50e37cdc6, 0x19a91cece6ad07);
  (0xc1dfa871be6e3, 0x19a91cece6ad07); (0x12e38bba0149f5, 0x19a91cece6ad07); (0x55869543683d1, 0x1c836caa446b89); (0x1646545373fb7e, 0x10edeaff3d77ad);
  (0xb232a29b9fdbf, 0x1c111528f7756c); (0x55869543683d1, 0x1cf5c42b9161a6); (0x1e841e126c3c46, 0x192bb4be35b875); (0xf420f09361e23, 0x192bb4be35b875);
  (0x1f4b4b05d9a996, 0x4913c60c91681); (0xfa5a582ecd4cb, 0x1436e1e3b5eb4c); (0x19c11674c7ca71, 0xa1b70f1daf5a6); (0x1ececeedb54544, 0x50db878ed7ad3);
  (0xa97ed09ff59f8, 0x19449a5ca3661f); (0x1e9090e1a3131b, 0x19449a5ca3661f); (0x1bea959f233c9d, 0x19449a5ca3661f); (0xd3de84c7f3076, 0x13f8a3d7a3b923);
  (0x1a9797fde3515e, 0x13f8a3d7a3b923); (0xd4bcbfef1a8af, 0x13f8a3d7a3b923); (0x1a89b44b70d925, 0x13f8a3d7a3b923); (0x17412c118a4924, 0x13f8a3d7a3b923);
  (0xba09608c52492, 0x1f9939e068ddb5); (0x5d04b04629249, 0x1f9939e068ddb5); (0x1d117715ecdb6d, 0xe2858d34126da); (0x1d117715ecdb6d, 0x7142c69a0936d);
  (0x1212d1bfc6b76d, 0x1926fe29674ada); (0xafea556262400, 0x186638b9fcbd21); (0x57f52ab131200, 0x1de58b650fcf21); (0x2bfa955898900, 0x1de58b650fcf21);
  (0xdbe4eabafad00, 0x1de58b650fcf21); (0x6df2755d7d680, 0x1de58b650fcf21); (0x36f93aaebeb40, 0x1de58b650fcf21); (0x1b7c9d575f5a0, 0x1f9d553a85c4c1);
  (0x896f12b4dcc20, 0x1a75f7ba23e3e1); (0x44b7895a6e610, 0x1ec1704fcac9f1); (0x225bc4ad37308, 0x1ec1704fcac9f1); (0xabcad76213f28, 0x1a75f7ba23e3e1);
  (0x55e56bb109f94, 0x1fd44e75348375); (0x2af2b5d884fca, 0x1fd44e75348375); (0xd6bd8d3a98ef2, 0x1d252317ac33ab); (0x6b5ec69d4c779, 0x1d252317ac33ab);
  (0x6b5ec69d4c779, 0x1f5960946a0c84); (0x16629cb409cdbb, 0xfacb04a350642); (0x1f4cc69a9c6e0d, 0x240d7768b7750); (0x1f4cc69a9c6e0d, 0x1206bbb45bba8);
  (0x1fdcfc783f4be1, 0x9035dda2ddd4); (0x1e2c5adf56b265, 0x2d10d542e5524); (0x1f94e1896ddcf7, 0x16886aa172a92); (0x1f94e1896ddcf7, 0xb443550b9549);
  (0x1cc3d4353f87d3, 0x38550a939ea6d); (0x1024926f3cb920, 0x13a9e31876a38d); (0x1bbc2c5015001d, 0x13a9e31876a38d); (0x17b307b445d1d5, 0x13a9e31876a38d);
  (0x1bbc2c5015001d, 0x78e75450918b5); (0x1bbc2c5015001d, 0x11a550ca8f0c69); (0x1bbc2c5015001d, 0x16b0be8d520643); (0x193924cdcee142, 0x11a550ca8f0c69);
  (0x1e41e331767d0a, 0x11a550ca8f0c69); (0xf20f198bb3e85, 0x11a550ca8f0c69); (0x1bbd83ffa2af26, 0x1429affc62da4d); (0xddec1ffd15793, 0x1429affc62da4d);
  (0x1ee2fafdeb7083, 0x110438fe1a18f0); (0x1ee2fafdeb7083, 0x8821c7f0d0c78); (0x55ca580c44b1b, 0x1fd14379b8a822); (0x1aa1ecbe64ea47, 0x1545473da09f2c);
  (0x1aa1ecbe64ea47, 0xaa2a39ed04f96); (0x1aa1ecbe64ea47, 0x1a8b455baca3a7); (0x1aa1ecbe64ea47, 0x1a96990d08c6f7); (0x1a9c42e5b6d89f, 0x1a96990d08c6f7);
  (0x1aa7969712fbef, 0x1a8b455baca3a7); (0x1aa7969712fbef, 0x1a996df95fcfcb); (0x1aa082483965dd, 0x1a996df95fcfcb); (0x1a9cf820cc9ad4, 0x1a996df95fcfcb);
  (0x1aa40c6fa630e6, 0x1a9259aa8639b9); (0xd520637d31873, 0x1a9259aa8639b9); (0xd520637d31873, 0x13f22ff12ca916); (0x1ad924bf06166d, 0x6a029b95990a3);
  (0x1dfcfaaee2f4ce, 0x6a029b95990a3); (0xefe7d57717a67, 0x159ea710cb0b0a); (0x1c974ea3c46f8e, 0x6a029b95990a3); (0x1b8bfac495590d, 0x6a029b95990a3);
  (0x17b63bf851057b, 0x1e5665b1aa961e); (0x17b63bf851057b, 0xf2b32d8d54b0f); (0x1d76da2ab782d6, 0x6a029b95990a3); (0x1bfbc0880ee2b1, 0x6a029b95990a3);
  (0x1bfbc0880ee2b1, 0x114df520b439aa); (0x1ae4521f5f0a97, 0x6a029b95990a3); (0x1e02915f0f6ee3, 0x6a029b95990a3); (0x12515d8c347fc3, 0x18f187458e1066);
  (0x10c23dec5c4d9d, 0x18f187458e1066); (0x1d3b018f2355d0, 0xc78c3a2c70833); (0x1b16446a58b31b, 0xc78c3a2c70833); (0x13c784068fdda7, 0xc78c3a2c70833);
  (0x224bd24caa2b5, 0x1e1b8a848c4325); (0x102023d4ab72ed, 0x1e1b8a848c4325); (0x102023d4ab72ed, 0x171dd72c9bdb09); (0xb472da185ad86, 0x171dd72c9bdb09);
  (0x1cc16dfd5eb1cc, 0x171dd72c9bdb09); (0xe60b6feaf58e6, 0x171dd72c9bdb09); (0xe60b6feaf58e6, 0x1d50e9e6ef31c9); (0x7305b7f57ac73, 0x1d50e9e6ef31c9);
  (0x7305b7f57ac73, 0x1970fe327b1b91); (0x7305b7f57ac73, 0x1eb163d798bce8); (0x13a11ca3ccfa3d, 0x1050acd8e96402); (0x1bc9731041ac3e, 0x828566c74b201);
  (0x160d0ff4958820, 0x1e3566610a3a21); (0x1cadef8a5cb496, 0x828566c74b201); (0x1ea7a49e17be4d, 0x828566c74b201); (0x1b9053f1baea28, 0x828566c74b201);
  (0x1367fd85463827, 0x1561b2990141de); (0x1367fd85463827, 0x1e18d6d1c6d916); (0x1367fd85463827, 0xf0c6b68e36c8b); (0x15c9da8dedfa0c, 0xf0c6b68e36c8b);
  (0x19f158afda6991, 0xf0c6b68e36c8b); (0x147ee20c5eeb0e, 0xf0c6b68e36c8b); (0xa3f71062f7587, 0x194bdc6f12e212); (0x15245e4d26728d, 0xf0c6b68e36c8b);
  (0x121864db04ef8c, 0xf0c6b68e36c8b); (0x18189dd665e451, 0xf0c6b68e36c8b); (0x90c326d8277c6, 0x1e011ce8e4c7d9); (0x4861936c13be3, 0x1e011ce8e4c7d9);
  (0x4861936c13be3, 0x1ed5e6b416b587); (0x169e7e11c62b6f, 0x11439b0fd301de); (0x1f404b99afac5e, 0x8a1cd87e980ef); (0xfa025ccd7d62f, 0x1841f354c1571e);
  (0xfa025ccd7d62f, 0x1bc11f773881be); (0x37f2c22772aa0, 0x1d2c531db2da2b); (0x1bf96113b9550, 0x1eebe92eee6f7b); (0xdfcb089dcaa8, 0x1fcbb4378c3a23);
  (0x45ef72b14f548, 0x1c4c8815150f83); (0x22f7b958a7aa4, 0x1e7c03aa9f8a27); (0x117bdcac53d52, 0x1f93c17564c779); (0x576b4f5da329a, 0x1f93c17564c779);
  (0x2bb5a7aed194d, 0x1f93c17564c779); (0x2bb5a7aed194d, 0x1ed0525eca6ee4); (0x14dede253f6a0c, 0x122383aa5250bf); (0x1fcc4810f3cf40, 0x122383aa5250bf);
  (0xfe6240879e7a0, 0x122383aa5250bf); (0x1a1695ae8f448f, 0x122383aa5250bf); (0x1ec9db8dcf1e94, 0x23d5fa1d8691f); (0x161d0cac70caa7, 0x185a6c4e4933c6);
  (0x161d0cac70caa7, 0xc2d36272499e3); (0x1954c44c33c00e, 0xc2d36272499e3); (0x18d7984d3e79ea, 0xc2d36272499e3); (0x1899024dc3d6d8, 0xc2d36272499e3);
  (0xc4c8126e1eb6c, 0x1879b74e06854f); (0xc4c8126e1eb6c, 0x17fc8b4f113f2b); (0x626409370f5b6, 0x1e22cbe28234e1); (0x3132049b87adb, 0x1e22cbe28234e1);
  (0xf5fa1709a6647, 0x14e96b0558c450); (0xf5fa1709a6647, 0x19d456f346c86f); (0xf5fa1709a6647, 0x1499fc31f0975b); (0x1dd0f666fc45af, 0x53a5ac1563114);
  (0x1dd0f666fc45af, 0x29d2d60ab188a); (0x1f1f8d1751d1f4, 0x14e96b0558c45); (0x1f3ed6cfab7c36, 0x14e96b0558c45); (0x1b5312beaad767, 0x688f171abbd59);
  (0x10ee02182b4a60, 0x1776f389d707b9); (0x877010c15a530, 0x1fedf495ecace9); (0x12dc11b2953237, 0x1776f389d707b9); (0x1529829e361cf8, 0x1776f389d707b9);
  (0xa94c14f1b0e7c, 0x1776f389d707b9); (0x1de15d573e1ce2, 0x24d70eba0eac1); (0x1a73e345c3a436, 0x1cc15431648ef7); (0xd39f1a2e1d21b, 0x1cc15431648ef7);
  (0x14fda2ea233089, 0x1cc15431648ef7); (0x12b031fe8245c8, 0x1cc15431648ef7); (0x95818ff4122e4, 0x1cc15431648ef7); (0x4ac0c7fa09172, 0x1cc15431648ef7);
  (0x175c3e7e22d73a, 0x181547b1c3fd85); (0xbae1f3f116b9d, 0x181547b1c3fd85); (0x11e1b3786ab491, 0x181547b1c3fd85); (0x1d8fd2b77c202e, 0x1e48dbeb1d4679);
  (0xec7e95bbe1017, 0x1e48dbeb1d4679); (0xec7e95bbe1017, 0x168862a36dab48); (0x1a0c1aad74e5bb, 0xb443151b6d5a4); (0x124ba165c54a8a, 0x1304aa996670d5);
  (0x925d0b2e2a545, 0x1c2a7b4c49161a); (0x173b0e59073052, 0xe153da6248b0d); (0xd5c34728364c2, 0x1304aa996670d5); (0x19b2c4d2a82336, 0x1304aa996670d5);
  (0xcd9626954119b, 0x1fde0d02ba8270); (0x13877ca295c3fc, 0x192ff2c978d00f); (0x9c3be514ae1fe, 0x192ff2c978d00f); (0x4e1df28a570ff, 0x1e11d1f21e410e);
  (0x4e1df28a570ff, 0x1dae8672ff7384); (0x18695bcb3b34fb, 0x1dae8672ff7384); (0x18695bcb3b34fb, 0xed743397fb9c2); (0x1fd4fd67fb11dc, 0x76ba19cbfdce1);
  (0x1997960269d17a, 0x76ba19cbfdce1); (0x1ba30e3ab4a27f, 0x76ba19cbfdce1); (0x18f2f9887a1c91, 0x76ba19cbfdce1); (0x118757ebba3fb0, 0x1392d0240510b5);
  (0x8c3abf5dd1fd8, 0x1c567c19e2308d); (0x461d5faee8fec, 0x1c567c19e2308d); (0x230eafd7747f6, 0x1e876717597883); (0xaf496f35467ce, 0x1e876717597883);
  (0x57a4b79aa33e7, 0x1e876717597883); (0x177b24c22c0a1c, 0x1200d94881d635); (0x1b637960530383, 0xc868dced7a24e); (0x1b637960530383, 0x64346e76bd127);
  (0x1d59edf2b70ca3, 0x64346e76bd127); (0x44cd25507c807, 0x1f5062851b15c3); (0x11ce9a6d116ee5, 0x1f5062851b15c3); (0x11ce9a6d116ee5, 0x188f7e79164254);
  (0x1c40ffb52bbb92, 0x6c0e40c04d36f); (0x1ba247f29f84a7, 0x6c0e40c04d36f); (0x113195ff522c0b, 0x17f27a0b56ff7a); (0x1d2ad304fdabc8, 0xbf93d05ab7fbd);
  (0x1669eef8f8d859, 0x12ba2111b0532c); (0x1fc6ff81d101ef, 0x95d1088d82996); (0x1fc6ff81d101ef, 0x4ae88446c14cb); (0x1b18773d64ed24, 0x1768a9561c67f7);
  (0xd8c3b9eb27692, 0x1768a9561c67f7); (0x6c61dcf593b49, 0x1e2ec72575a340); (0x6c61dcf593b49, 0x1cfbcb2706051e); (0x6c61dcf593b49, 0x1c0a2132357921);
  (0x6c61dcf593b49, 0x1ef45b1f79d0c7); (0x6c61dcf593b49, 0x19a35a46c2c151); (0x1c8d94340718f7, 0x55100d8b70f76); (0x1f3614a062a0b2, 0x2a8806c5b87bb);
  (0x12438abc8cd814, 0x14ec0b28e85fcf); (0xf9b0a50315059, 0x1ce58c6dfaf700); (0x1e0dd0872ecbd9, 0xe72c636fd7b80); (0x1e0dd0872ecbd9, 0x739631b7ebdc0);
  (0x861a734b29299, 0x1bbd4854c72227); (0x1a711ef96f6cf9, 0x120f77c4bcda60); (0x1a711ef96f6cf9, 0x907bbe25e6d30); (0x1ef4fcea9ea391, 0x483ddf12f3698);
  (0x1a711ef96f6cf9, 0x169355b5ec10f8); (0x1a711ef96f6cf9, 0xb49aadaf6087c); (0x1a711ef96f6cf9, 0x5a4d56d7b043e); (0x14cc498bf468bb, 0x1c382b23671536);
  (0x14cc498bf468bb, 0xe1c1591b38a9b); (0x14cc498bf468bb, 0x11742f8ed3f9ab); (0x1b7c7d863546db, 0xac3fb94931b8b); (0x13203c8d643133, 0x1de43821f74cbe);
  (0x13203c8d643133, 0xef21c10fba65f); (0x13203c8d643133, 0x11092c4f2febc9); (0x174e5d09ccbc07, 0xcdb0bd2c760f5); (0x1214b46e4a0e7e, 0x1eefc041116f73);
  (0x90a5a3725073f, 0x1eefc041116f73); (0x1df0fca52fbd63, 0x3d0b19ba259b6); (0x1fd9557300ea3e, 0x1e858cdd12cdb); (0x15a5b522f3fbb0, 0x178e0df0c5288b);
  (0xe0451ebaf4844, 0x178e0df0c5288b); (0x1e9036e69cccad, 0x178e0df0c5288b); (0x1b0f226bb0fa9c, 0x178e0df0c5288b); (0xd879135d87d4e, 0x178e0df0c5288b);
  (0x1b8be32187c592, 0xa067cbaecab3d); (0x17cc6e4bb08e06, 0xa067cbaecab3d); (0x15ecb3e0c4f240, 0x1ff3309bb19d7d); (0xdc5f190c3e2c9, 0x1ff3309bb19d7d);
  (0x16dc91163ac023, 0x1ff3309bb19d7d); (0x1b67e0d8f62ed0, 0x1ff3309bb19d7d); (0xdc5f190c3e2c9, 0x16b88ecda92961); (0xdc5f190c3e2c9, 0x123f402f368615);
  (0x100298dffd346f, 0x123f402f368615); (0x1120ec8799dd42, 0x123f402f368615); (0xee44538608b9c, 0x147be77e6fd7bb); (0x772229c3045ce, 0x1bee0a1aa01d89);
  (0x3b9114e1822e7, 0x1fa71b68b84070); (0x129d568678ae83, 0x1fa71b68b84070); (0x129d568678ae83, 0xfd38db45c2038); (0x1a871d60a6be9f, 0x7e9c6da2e101c);
  (0x2c9c8d21c8e4b, 0x1f3387cc90a5ab); (0x169239f38fb691, 0x13c87121732846); (0x169239f38fb691, 0x9e43890b99423); (0x1a1f71d2de397d, 0x9e43890b99423);
  (0x169239f38fb691, 0xd71707008170f); (0x1201d531cbe6d0, 0x1f7345a1d3fddf); (0x900ea98e5f368, 0x1f7345a1d3fddf); (0x169239f38fb691, 0x16725b08ee0a77);
  (0x16824a7e3ee084, 0x16725b08ee0a77); (0xb41253f1f7042, 0x16725b08ee0a77); (0x169239f38fb691, 0xb2146547dc428); (0x1c22dd1dce98a5, 0x590a32a3ee214);
  (0x1c22dd1dce98a5, 0x1eeb2eb2ee09af); (0x1c22dd1dce98a5, 0x1d8705e85e512a); (0x1abeb4533ee020, 0x6f4cbf4ce9a99); (0xd5f5a299f7010, 0x1454261e6e0aa9);
  (0x6afad14cfb808, 0x1b03d3333dc2b1); (0x66a8e34d0d577, 0x1b03d3333dc2b1); (0x10b730b4074c14, 0x1b03d3333dc2b1); (0x85b985a03a60a, 0x1b03d3333dc2b1);
  (0xec6268ed47b81, 0x1b03d3333dc2b1); (0x14e4fce1091f19, 0x1b03d3333dc2b1); (0x14e4fce1091f19, 0x17f4680a2370e5); (0x14e4fce1091f19, 0x166cb2759647ff);
  (0x104ddc2361a467, 0x17f4680a2370e5); (0x14212216c28aa6, 0x17f4680a2370e5); (0xa10910b614553, 0x17f4680a2370e5); (0x168b273b62037b, 0xde3d6fec22b92);
  (0x1d7d12bac31944, 0x6f1eb7f6115c9); (0x1ca2605c23b834, 0x6f1eb7f6115c9); (0xebe895d618ca2, 0x13fb101f83e04b); (0x75f44aeb0c651, 0x1b5a54ce34a69c);
  (0x1c6bb3c47bdff0, 0x150c6f15cb199f); (0x172f2d02598c47, 0xdad2a671a534e); (0x1e05c235e6b5ee, 0x6d695338d29a7); (0x1cb00b820dae45, 0x6d695338d29a7);
  (0x11c3505acd6bf6, 0x1899e58e5a959d); (0xf02e11af35af7, 0x1899e58e5a959d); (0x13ce6354a6f84a, 0x1899e58e5a959d); (0x9e731aa537c25, 0x1899e58e5a959d);
  (0x141e908b9339c9, 0xeb2b3e4071978); (0x1b77ea7d96c685, 0x75959f2038cbc); (0x1f249776988ce3, 0x3acacf901c65e); (0x1b77ea7d96c685, 0x125f60dd08dfd6);
  (0x1b77ea7d96c685, 0x92fb06e846feb); (0x1b837de4920b23, 0x92fb06e846feb); (0x125997298b3d87, 0x1b8947980fad72); (0x9241d07892b4d, 0x1b8947980fad72);
  (0x16e8c0d3910206, 0xdc4a3cc07d6b9); (0x19390435d057bc, 0xdc4a3cc07d6b9); (0x9241d07892b4d, 0x1dd98afa4f0328); (0x1810e284b0ace1, 0xeecc57d278194);
  (0x1f874543446dab, 0x77662be93c0ca); (0x9241d07892b4d, 0x1c2bd0b15998a5); (0x1bcc13e3fa8d46, 0x12a7f6dc7161f9); (0xde609f1fd46a3, 0x12a7f6dc7161f9);
  (0x1e2d0a59349af1, 0x1047006737544e); (0xb85137cc338f8, 0x1769e3c6e57d4f); (0x5c289be619c7c, 0x1d2c6d854719cb); (0x2e144df30ce3e, 0x1d2c6d854719cb);
  (0xe66585bf40736, 0x14889ee7b4af11); (0x7332c2dfa039b, 0x1bbbcb15aeb2ac); (0x1c443de6cb608c, 0x151111b8d15cf1); (0xeeecb2d10b516, 0x151111b8d15cf1);
  (0x1c88774f59b77c, 0x151111b8d15cf1); (0xe443ba7acdbbe, 0x151111b8d15cf1); (0x1c332f8ca7cad0, 0x151111b8d15cf1); (0x1c332f8ca7cad0, 0x14bbc9f61f7045);
  (0xe1997c653e568, 0x14bbc9f61f7045); (0x70ccbe329f2b4, 0x1bc895d94962f9); (0xe843179b24d3f, 0x14bbc9f61f7045); (0x119ffdb7e8dec2, 0x14bbc9f61f7045);
  (0x8cffedbf46f61, 0x1d8bc8d213dfa6); (0x1fa0c952ebe6d9, 0x31bcc3e369183); (0x147a1706c7cdb1, 0x1795e344fe5f34); (0x147a1706c7cdb1, 0xbcaf1a27f2f9a);
  (0x1a5f8fd807657e, 0x5e578d13f97cd); (0x2c9ac9309064a, 0x1d7b5c163df701); (0x164d649848325, 0x1ee0325fc27a26); (0x10d4ef7965c038, 0xf70192fe13d13);
  (0x164d649848325, 0x1f30de7551499a); (0x164d649848325, 0x1eeda4635a4764); (0x13a5550e3aad21, 0x12407ec4b629fc); (0x1938ae344cb9b5, 0x12407ec4b629fc);
  (0x1938ae344cb9b5, 0x9203f625b14fe); (0x1dc8cde57a4434, 0x4901fb12d8a7f); (0x1c94c60645c197, 0x4901fb12d8a7f); (0x1c94c60645c197, 0x16d09e75e3b47b);
  (0x19b2b23e14bb09, 0x16d09e75e3b47b); (0x19b2b23e14bb09, 0x1841a859fc37c2); (0x1f76d9ce76c825, 0x1841a859fc37c2); (0x1f76d9ce76c825, 0xc20d42cfe1be1);
  (0x15cbd6fdba7203, 0xc20d42cfe1be1); (0x1f1e548de14671, 0x275d15c41c5bf); (0x1d1729c25a62d3, 0x1f8cfb1e9c2892); (0x1d1729c25a62d3, 0xfc67d8f4e1449);
  (0x1d1729c25a62d3, 0x166ed3a8d43b8e); (0xadadad6ca88cb, 0x166ed3a8d43b8e); (0x161244ab34a692, 0xb3769d46a1dc7); (0x16408c2a047110, 0xb3769d46a1dc7);
  (0xb0922559a5349, 0x16f9aa25439b08); (0xb0922559a5349, 0x1685f7683c20cd); (0x10c78cdeeb3a0b, 0x1685f7683c20cd); (0x1053da21e3bfd0, 0x1685f7683c20cd);
  (0x1eafe4792e00b5, 0x1685f7683c20cd); (0x1eafe4792e00b5, 0x1a9aedf0b510c1); (0x1ca56934f188bb, 0x1a9aedf0b510c1); (0xa3468552e57e2, 0x1685f7683c20cd);
  (0x1ba02b92d34cbe, 0x1685f7683c20cd); (0xdd015c969a65f, 0x1685f7683c20cd); (0x12ea49f400d250, 0x1f3bd9070e9b3b); (0x97524fa006928, 0x1f3bd9070e9b3b);
  (0x4ba927d003494, 0x1f3bd9070e9b3b); (0x17a4dc710106e4, 0x1f3bd9070e9b3b); (0xbd26e38808372, 0x1f3bd9070e9b3b); (0x5e9371c4041b9, 0x1f3bd9070e9b3b);
  (0x5e9371c4041b9, 0x1e64f64a27f1ec); (0x1d8e138d41489d, 0x12928811a76e7a); (0x1d8e138d41489d, 0x9494408d3b73d); (0x1cb4efd3de372a, 0x9494408d3b73d);
  (0x1cb4efd3de372a, 0x11b96458445d07); (0xe5a77e9ef1b95, 0x11b96458445d07); (0xe5a77e9ef1b95, 0x1e64660b08d7e3); (0x1b05799cb39671, 0x11b96458445d07);
  (0x1b05799cb39671, 0x165f6efa7bf9bc); (0x1b05799cb39671, 0xb2fb77d3dfcde); (0x1b05799cb39671, 0x597dbbe9efe6f); (0xa3de660d69b24, 0x1bf74ab91af82b);
  (0x51ef3306b4d92, 0x1bf74ab91af82b); (0x28f799835a6c9, 0x1e86c451509ef4); (0xccd5ff90c41ed, 0x1e86c451509ef4); (0x1c10c221b49167, 0xf436228a84f7a);
  (0x1c10c221b49167, 0x7a1b1145427bd); (0x1c10c221b49167, 0xa17b343f0354a); (0x1c10c221b49167, 0x50bd9a1f81aa5); (0x108e4de1d65606, 0x159a2783ce70ab);
  (0x11f90eddc45c1d, 0x159a2783ce70ab); (0x13c99b30c96664, 0x159a2783ce70ab); (0x1f7ef51c3323dd, 0x159a2783ce70ab); (0x1f7ef51c3323dd, 0x1a8c8e5000ca44);
  (0x18bc01fcfbbffd, 0x159a2783ce70ab); (0x172b14c0651854, 0x159a2783ce70ab); (0xb958a60328c2a, 0x159a2783ce70ab); (0xeb764d95fdb7c, 0x159a2783ce70ab);
  (0x1cf5d9f07e5e69, 0x159a2783ce70ab); (0x194800ba26678a, 0x159a2783ce70ab); (0x194800ba26678a, 0x6e2c2aa6e952f); (0xca4005d1333c5, 0x1386c30781c8f4);
  (0xca4005d1333c5, 0x166761e0d4183f); (0xca4005d1333c5, 0x1e29b17c06d9c7); (0x7c24f9b32c188, 0x186873c9623b31); (0x3e127cd9960c4, 0x1c499b96fb9bf5);
  (0x1f093e6ccb062, 0x1e3a2f7dc84c57); (0x9b2e381ff71ea, 0x1a5907b02eeb93); (0x4d971c0ffb8f5, 0x1f3279712ea488); (0x1e2591fb967d23, 0x194c203a96c42e);
  (0x183f38c4fe9cc9, 0x194c203a96c42e); (0x183f38c4fe9cc9, 0xca6101d4b6217); (0x1f18b48e706187, 0xca6101d4b6217); (0x15df6255dde1cf, 0xca6101d4b6217);
  (0x9395238927fb8, 0x1a5907b02eeb93); (0x49ca91c493fdc, 0x1ef5b0cc782b6f); (0x24e548e249fee, 0x1ef5b0cc782b6f); (0x24e548e249fee, 0x1e469e029f1cf7);
  (0x1272a47124ff7, 0x1f6dc849b16cee); (0x1272a47124ff7, 0x1fdb3407d915f9); (0x5c3d3635b8fd3, 0x1d8cdf79b4760b); (0x5c3d3635b8fd3, 0x1d3000353f2295);
  (0x5c3d3635b8fd3, 0x1d0190930478da); (0x1a086f10395c13, 0x14449bacddcc40); (0x1cd320f0c9cf1f, 0xe80c849823c6d); (0x15a9f49d2605c6, 0xe80c849823c6d);
  (0xad4fa4e9302e3, 0x1955c298153f50); (0xad4fa4e9302e3, 0x1d3000353f2295); (0xad4fa4e9302e3, 0x1ed777907c159f); (0xad4fa4e9302e3, 0x1fab333e1a8f24);
  (0x182527a6017255, 0xa013ea0f4895e); (0x1d25c6f67bb704, 0x5009f507a44af); (0x1d94c16caca98f, 0x5009f507a44af); (0x1d94c16caca98f, 0x114ab05e93771f);
  (0x139382cbb82031, 0x164b4faf0dbbce); (0x1eb92aa33efe18, 0xb25a7d786dde7); (0x1a823d29265cf3, 0xb25a7d786dde7); (0x139382cbb82031, 0x12146234f51aa9);
  (0x12d3f280569d6d, 0x12146234f51aa9); (0x12d3f280569d6d, 0x12742a5aa5dc0b); (0x5fc825b0c162, 0x1fa82beb62ec33); (0x2fe412d860b1, 0x1fd80ffe3b4ce4);
  (0x2fe412d860b1, 0x1fd2c240f5c137); (0x17acda2e8e8d4d, 0x177cf61bb62c9c); (0x17dcbe4166edfe, 0x16ed49e32d0a89); (0xbee5f20b376ff, 0x16ed49e32d0a89);
  (0xbee5f20b376ff, 0x1d5c33a2a3b7c3); (0x66ee9bf76ad3a, 0x1b7d4ae62ff0d9); (0x33774dfbb569d, 0x1eb4bfc5eb4776); (0x1900be8227a792, 0x15c949a26c50f5);
  (0x1c383361e2fe2f, 0xc22eb033a4d1e); (0x1c383361e2fe2f, 0x61175819d268f); (0x1c383361e2fe2f, 0x1124d471c0125f); (0x16ae83e9d18847, 0x1124d471c0125f);
  (0x1bb06d58574d88, 0x61175819d268f); (0xdd836ac2ba6c4, 0x13e9ac2dc8cd53); (0x1ad5c783dea0b5, 0x13e9ac2dc8cd53); (0x159ef7d6ba26f9, 0xcfd90d7b2f9f1);
  (0x1e4bd52ee98a66, 0xcfd90d7b2f9f1); (0xf25ea9774c533, 0x1c237b6f27bf24); (0x22859bfc1cb42, 0x1e6e383a622d95); (0x1142cdfe0e5a1, 0x1f82651a431336);
  (0x1142cdfe0e5a1, 0x1fefd3ab4efe0a); (0x12204395694a47, 0x110c16b58864a6); (0x133470754a2fe8, 0xdcf9015e5b3c3); (0x99a383aa517f4, 0x1769c8508acbb7);
  (0x4cd1c1d528bfa, 0x1c36e46ddd57b1); (0x18018c929cbbe2, 0x90273f89327c9); (0xc00c6494e5df1, 0x15033a41e185ba); (0xc00c6494e5df1, 0x1682636a3f20ce);
  (0x1c7f080bb58d1e, 0xa819d20f0c2dd); (0x18c12126cb896c, 0xa819d20f0c2dd); (0xc60909365c4b6, 0x16e22db4568793); (0x1d1275fe0969ee, 0x16e22db4568793);
  (0x1ef169707e6bc7, 0x16e22db4568793); (0x1ae9cb926a79ad, 0x16e22db4568793); (0x18e5fca36080a0, 0x16e22db4568793); (0xa130aab31dd41, 0x16e22db4568793);
  (0x107a9c2fc4326a, 0x16e22db4568793); (0x1f1f7bcc38a0c8, 0x16e22db4568793); (0x1c63636e45d3b7, 0x6679184925529); (0x17cd0bfdfe6999, 0x1e349d8290bec2);
  (0x17cd0bfdfe6999, 0xf1a4ec1485f61); (0xafde8f4d9bf47, 0x1581e045dab48a); (0x15bed917c7198c, 0xac0f022ed5a45); (0x15a05caed0e70b, 0xac0f022ed5a45);
  (0x15a05caed0e70b, 0x1030a668df20a8); (0x1b2e8f5db8dfef, 0x55139dcfb93e2); (0x1dd72c4c36a9e0, 0x2a89cee7dc9f1); (0x11943314991ee1, 0x143cd00316e8d2);
  (0xeeb96261b54f0, 0x1c36a6ce9046a5); (0x775cb130daa78, 0x1c36a6ce9046a5); (0x3bae58986d53c, 0x1ff18c58171be1); (0x3bae58986d53c, 0x1d2a5beb046431);
  (0x1dd72c4c36a9e, 0x1f07ceafc7cecf); (0xeeb96261b54f, 0x1ff6881229841e); (0xeeb96261b54f, 0x1fd5939191cc4e); (0x4a99eebe88a8b, 0x1fd5939191cc4e);
  (0x4a99eebe88a8b, 0x1de7a68c8285c8); (0x4a99eebe88a8b, 0x1cf0b009fae285); (0x17501a9b8ab4b7, 0x1cf0b009fae285); (0x1a206552c2cb9e, 0x1cf0b009fae285);
  (0xd1032a96165cf, 0x1cf0b009fae285); (0xa3fe7f2294ee8, 0x18515d8641c16b); (0x51ff3f914a774, 0x1d71517f5668df); (0x28ff9fc8a53ba, 0x1d71517f5668df);
  (0x147fcfe4529dd, 0x1eb94e7d9b92bc); (0x667f0f759d151, 0x1d71517f5668df); (0x1ebc832a0bbfba, 0x18549232b1ee69); (0xf5e419505dfdd, 0x18549232b1ee69);
  (0x1d79552e6ed95a, 0x28e5fa6523d3b); (0x114b0a3d89a9e8, 0x13d969e3dbe723); (0x1c7eef02a0bc17, 0x13d969e3dbe723); (0x61725787297b9, 0x1f0d4ea8f2f952);
  (0x159dccccec1462, 0xf86a754797ca9); (0x1a558dbaef86da, 0xf86a754797ca9); (0xd2ac6dd77c36d, 0x1cb16e31f14016); (0x17f9ad43edcd9e, 0x11e287cb7b35e5);
  (0xbfcd6a1f6e6cf, 0x1ddf5e6d721cb4); (0x1aec85d8aff529, 0xeefaf36b90e5a); (0x909fe0d34bf44, 0x17c838f4ff84fb); (0x484ff069a5fa2, 0x1c4d37fb99e49d);
  (0x2427f834d2fd1, 0x1e8fb77ee7146e); (0xb4c7d9081ef15, 0x1585b971b2552a); (0x160f5a495b19aa, 0xac2dcb8d92a95); (0xb07ad24ad8cd5, 0x15ca89dd86b76a);
  (0xb07ad24ad8cd5, 0x15ecf21370e88a); (0xb07ad24ad8cd5, 0x1563513bc8240a); (0xb07ad24ad8cd5, 0x15b955c2919eda); (0xb07ad24ad8cd5, 0x15e45805f65c42);
  (0x163a5c8cbfd712, 0xab1a89de41205); (0xb1d2e465feb89, 0x15ced6e443fd8e); (0xb1d2e465feb89, 0x160499b881ea50); (0xb52f11a9dd84b, 0x159914100610cc);
  (0x161f7b22a0e0b1, 0xacc8a08030866); (0x161f7b22a0e0b1, 0x1b85c026a264e4); (0x161f7b22a0e0b1, 0xdc2e013513272); (0x161f7b22a0e0b1, 0x188f6a1b543ad8);
  (0x161f7b22a0e0b1, 0xc47b50daa1d6c); (0x1c4355a975ef67, 0x623da86d50eb6); (0x1ecb4ed452a437, 0x623da86d50eb6); (0x1ecb4ed452a437, 0x311ed436a875b);
  (0x1d36531988b335, 0x311ed436a875b); (0x1d66677ddb6887, 0x311ed436a875b); (0x1f95ccb1b79cb8, 0x311ed436a875b); (0x1f2488a9f07323, 0x311ed436a875b);
  (0x1d62f004579aab, 0x311ed436a875b); (0x1a5102c0ed1350, 0xf59a25114a4c7); (0xd2881607689a8, 0x1c8223b18b2e6f); (0x69440b03b44d4, 0x1c8223b18b2e6f);
  (0x1eb422808a3d05, 0x23120f09e1b1f); (0x1072a1b8942c12, 0x12a3c2a9324731); (0x83950dc4a1609, 0x1add13857c5d3a); (0x6082febabfaea, 0x1d0e34761a7859);
  (0x30417f5d5fd75, 0x1d0e34761a7859); (0x130d3e2bce385c, 0x10092635f83ae7); (0x9869f15e71c2e, 0x198fc54bdf5715); (0x1f97f5378b51ff, 0x10092635f83ae7);
  (0x17d08db6c1c673, 0x10092635f83ae7); (0x13ecd9f65d00ad, 0x10092635f83ae7); (0x13ecd9f65d00ad, 0x1467312ac2247c); (0x13ecd9f65d00ad, 0x1e20728bbe12eb);
  (0x13ecd9f65d00ad, 0x1906a6410d89cc); (0x49f75164b6550, 0x1e20728bbe12eb); (0x24fba8b25b2a8, 0x1e20728bbe12eb); (0x127dd4592d954, 0x1f484fd150ec3f);
  (0x93eea2c96caa, 0x1fdc3e741a58e9); (0x2e3a92def1f52, 0x1fdc3e741a58e9); (0x171d496f78fa9, 0x1fdc3e741a58e9); (0x10a7098588f449, 0x1fdc3e741a58e9);
  (0x166e5be16732ed, 0xf3534ee9164a0); (0x1e08f658afe53d, 0x79a9a7748b250); (0x1e08f658afe53d, 0x3cd4d3ba45928); (0x166e5be16732ed, 0x1302822a35bdc8);
  (0x1fef9cf68211d1, 0x98141151adee4); (0x1fef9cf68211d1, 0x4c0a08a8d6f72); (0x1fef9cf68211d1, 0x260504546b7b9); (0x1d8f4cb13b5a18, 0xbe1915a61969d);
  (0x1aa937b2ff43a9, 0xbe1915a61969d); (0x13456486b06d23, 0x1f26f5e11203c0); (0x763d32c4ed686, 0x1dd88a12ac96f9); (0x3b1e996276b43, 0x1dd88a12ac96f9);
  (0x3b1e996276b43, 0x1f8ce02d07ae2a); (0x12798feec5184f, 0x1f8ce02d07ae2a); (0x12798feec5184f, 0xfc6701683d715); (0x11200002a477b2, 0xfc6701683d715);
  (0x152cafc7065989, 0xe6ce02a633678); (0x1c631fdc37f4c5, 0x7367015319b3c); (0x1ffe57e6d0c263, 0x39b380a98cd9e); (0x1ffe57e6d0c263, 0x1cd9c054c66cf);
  (0x1e30bbe1845b94, 0x9040c1a7e020b); (0x181c6a0b402fd5, 0x9040c1a7e020b); (0x181c6a0b402fd5, 0x10903b12df18f0); (0x181c6a0b402fd5, 0xa7be93c9aed31);
  (0x181c6a0b402fd5, 0x114c29a3ed8e83); (0x181c6a0b402fd5, 0x14b449d796df2c); (0x1b848a3ee9807e, 0xa7be93c9aed31); (0xdc2451f74c03f, 0x183e2e5c0fad70);
  (0xdc2451f74c03f, 0x19e15c4d7c96f7); (0x13d1d0b678ab9b, 0x19e15c4d7c96f7); (0xdc2451f74c03f, 0x1e4db9f31398cc); (0xdc2451f74c03f, 0x1ce92218fe8ca5);
  (0x1555b39c39a672, 0x1ce92218fe8ca5); (0xdc2451f74c03f, 0x181ee35063bec0); (0xdc2451f74c03f, 0x19d1b6c7a69f9f); (0xdc2451f74c03f, 0x13c9fdf38dafef);
  (0x1a954bd099336b, 0x607b8d418efb0); (0x1d99283aa5ab43, 0x303dc6a0c77d8); (0x1f1b166fabe72f, 0x181ee35063bec); (0x1fdc0d8a2f0525, 0xc0f71a831df6);
  (0x1cd83120228d4d, 0x3c4d3848f95ce); (0x1eba9ae26a5834, 0x1e269c247cae7); (0x1e709b83738352, 0x1e269c247cae7); (0x16e6f47a5457b6, 0x96c10cb66f683);
  (0x14df8b0891225e, 0x1e4b9bd3f818e1); (0xa6fc58448912f, 0x1e4b9bd3f818e1); (0xb737a3d2a2bdb, 0x1d47e71b167e35); (0x1fd12ae94a80e3, 0x145db0ac205508);
  (0x1fd12ae94a80e3, 0xa2ed856102a84); (0x1fd12ae94a80e3, 0x5176c2b081542); (0x1fcc465aaa70fd, 0x5176c2b081542); (0x1fcc465aaa70fd, 0x28bb615840aa1);
  (0x1de68ca3ab72f4, 0x28bb615840aa1); (0x13b7b44d9b4870, 0xcba8e6b943525); (0x1696689261d95d, 0xcba8e6b943525); (0x1e6309ea8f3c66, 0xcba8e6b943525);
  (0x4eded1366d21c, 0x1d234c92154af5); (0x276f689b3690e, 0x1f9a431bc8b403); (0x13b7b44d9b487, 0x1f9a431bc8b403); (0x13b7b44d9b487, 0x1f34a66a85aa99);
  (0x62968584086a3, 0x1a46b9571ed87d); (0x1661792ff03633, 0x103810d7afaf90); (0x1e7d819bc80dfb, 0x81c086bd7d7c8); (0x1e7d819bc80dfb, 0xa0ea87f6f28ed);
  (0x1e7d819bc80dfb, 0x1446150d9b9b74); (0x1e7d819bc80dfb, 0xa230a86cdcdba); (0xa376c8e2c7287, 0x1e405b85ac1f94); (0xa376c8e2c7287, 0x19579a51028251);
  (0x11c7836f977a6c, 0x19579a51028251); (0x8e3c1b7cbbd36, 0x19579a51028251); (0x1d529ad424a244, 0x79016e16b07e5); (0x1639644b7d5907, 0x1dc97b2ce860ec);
  (0x1639644b7d5907, 0xee4bd96743076); (0x15c283f2b99a5f, 0xee4bd96743076); (0x1d34e2bdf3b29a, 0x7725ecb3a183b); (0x1d7f2ef56e09c3, 0x7725ecb3a183b);
  (0xe9a715ef9d94d, 0x16a16899289fda); (0x19eb25ab8e293a, 0xb50b44c944fed); (0xcf592d5c7149d, 0x184647225b648a); (0xcf592d5c7149d, 0x1918b666f4c6e2);
  (0xd26f44996258, 0x1fea7b74ec0951); (0x6937a24cb12c, 0x1fea7b74ec0951); (0x349bd1265896, 0x1fea7b74ec0951); (0x349bd1265896, 0x1ff66eee974ab7);
  (0x1a4de8932c4b, 0x1ff66eee974ab7); (0x1a4de8932c4b, 0x1ff58a3cb10cea); (0x83858adfdd77, 0x1f8c529a645bbe); (0x83858adfdd77, 0x1fb3551e4dff48);
  (0x83858adfdd77, 0x1fc6d66042d10d); (0x13bdd4c1b06583, 0x133a4f36d0880c); (0x13bdd4c1b06583, 0x112c390b511230); (0x13bdd4c1b06583, 0x1c53f14758ee9b);
  (0x13bdd4c1b06583, 0x1808e30484aa0f); (0xb27b83c07dc6b, 0x1577474e2556bc); (0xb27b83c07dc6b, 0x15e35be31a87c9); (0x10858a0f91321a, 0x15e35be31a87c9);
  (0x1bad424b990e85, 0x1b412db6a3dd78); (0x1bad424b990e85, 0xda096db51eebc); (0x1bad424b990e85, 0x6d04b6da8f75e); (0x1f1568026d8a34, 0x36825b6d47baf);
  (0x14dcf6ddf01727, 0x1108bc92266a6b); (0x12f2d9b80b40c9, 0x1108bc92266a6b); (0x11fdcb2518d59a, 0x1108bc92266a6b); (0x13e7e84afdabf8, 0xf1e9f6c41940d);
  (0x9f3f4257ed5fc, 0x19129391c06a09); (0x4f9fa12bf6afe, 0x1e0c8da47fd507); (0x4f9fa12bf6afe, 0x1ecf52748d2153); (0x27cfd095fb57f, 0x1ecf52748d2153);
  (0x27cfd095fb57f, 0x1f9415f734ac63); (0xc70f12ede8b7b, 0x1d1718edd4f6e4); (0xc70f12ede8b7b, 0x1afc7da5c906ed); (0xc70f12ede8b7b, 0x13b6b76a53c934);
  (0x164c4ce4087015, 0x9db5bb529e49a); (0xf0686a893325c, 0x112121f09f2253); (0x783435449992e, 0x18a46544e8bb81); (0x3c1a1aa24cc97, 0x1c6606ef0d8818);
  (0x3c1a1aa24cc97, 0x1d4d30baf3aec6); (0x3c1a1aa24cc97, 0x1dad1f060d09bf); (0x3c1a1aa24cc97, 0x1fbde700ac1d87); (0x12c82852b7fef3, 0x147902023db7c2);
  (0x1d04a953d6dad4, 0xa3c81011edbe1); (0xe8254a9eb6d6a, 0x18bed5ab0a494b); (0x20000000000000, 0x18bed5ab0a494b); (0x20000000000000, 0x1bba2c57336e77);
  (0x10000000000000, 0x1bba2c57336e77); (0x8000000000000, 0x1bba2c57336e77); (0x8000000000000, 0x1aa2ddb4012853); (0x4000000000000, 0x1ea2ddb4012853);
  (0x2000000000000, 0x1ea2ddb4012853); (0x2000000000000, 0x1f2e548405c99f); (0x1000000000000, 0x1f2e548405c99f); (0x800000000000, 0x1fae548405c99f);
  (0x400000000000, 0x1fee548405c99f); (0x400000000000, 0x1fe7a6941cf01b); (0x200000000000, 0x1fe7a6941cf01b); (0x100000000000, 0x1ff7a6941cf01b);
  (0x100000000000, 0x1ff640e490b087); (0x80000000000, 0x1ffe40e490b087); (0x40000000000, 0x1ffe40e490b087); (0x40000000000, 0x1fff4476d372a3);
  (0x20000000000, 0x1fff4476d372a3); (0x10000000000, 0x1fff4476d372a3); (0x8000000000, 0x1fffc476d372a3); (0x8000000000, 0x1fffd652213d2f);
  (0x4000000000, 0x1fffd652213d2f); (0x2000000000, 0x1ffff652213d2f); (0x2000000000, 0x1fffef9aa631eb); (0x1000000000, 0x1fffff9aa631eb);
  (0x800000000, 0x1fffff9aa631eb); (0x800000000, 0x1ffffe053ef997); (0x400000000, 0x1ffffe053ef997); (0x200000000, 0x1ffffe053ef997);
  (0x100000000, 0x1fffff053ef997); (0x100000000, 0x1fffff1a3adff3); (0x80000000, 0x1fffff9a3adff3); (0x40000000, 0x1fffffda3adff3);
  (0x40000000, 0x1fffffc3265fbf); (0x20000000, 0x1fffffe3265fbf); (0x10000000, 0x1ffffff3265fbf); (0x10000000, 0x1fffffffbfdebb);
  (0x8000000, 0x1fffffffbfdebb); (0x4000000, 0x1fffffffbfdebb); (0x2000000, 0x1fffffffbfdebb); (0x2000000, 0x1ffffffebf59a7);
  (0x1000000, 0x1fffffffbf59a7); (0x800000, 0x1fffffffbf59a7); (0x800000, 0x1fffffffbcc043); (0x400000, 0x1ffffffffcc043);
  (0x200000, 0x1ffffffffcc043); (0x200000, 0x1fffffffefc14f); (0x100000, 0x1fffffffffc14f); (0x80000, 0x1fffffffffc14f);
  (0x40000, 0x1fffffffffc14f); (0x40000, 0x1ffffffffec68b); (0x20000, 0x1ffffffffec68b); (0x10000, 0x1fffffffffc68b);
  (0x10000, 0x1fffffffffe0b7); (0x8000, 0x1fffffffffe0b7); (0x4000, 0x1fffffffffe0b7); (0x4000, 0x1fffffffffe393);
  (0x2000, 0x1fffffffffe393); (0x1000, 0x1ffffffffff393); (0x800, 0x1ffffffffffb93); (0x800, 0x1ffffffffff9df);
  (0x400, 0x1ffffffffffddf); (0x200, 0x1fffffffffffdf); (0x200, 0x1fffffffffff5b); (0x100, 0x1fffffffffff5b);
  (0x80, 0x1fffffffffffdb); (0x80, 0x1fffffffffffc7); (0x40, 0x1fffffffffffc7); (0x20, 0x1fffffffffffe7);
  (0x10, 0x1ffffffffffff7); (0x10, 0x1ffffffffffff3); (0x8, 0x1ffffffffffffb); (0x4, 0x1fffffffffffff);
  (0x4, 0x1fffffffffffff); (0x2, 0x1fffffffffffff); (0x1, 0x20000000000000); (0x1, 0x20000000000000);
  (0x1, 0x20000000000000); (0x1, 0x20000000000000); (0x1, 0x20000000000000); (0x1, 0x20000000000000);
  (0x1, 0x20000000000000); (0x1, 0x20000000000000); (0x1, 0x20000000000000); (0x1, 0x20000000000000);
  (0x1, 0x20000000000000); (0x1, 0x20000000000000); (0x1, 0x20000000000000); (0x1, 0x20000000000000);
  (0x5, 0x20000000000000); (0x5, 0x1fffffffffffff); (0x5, 0x1ffffffffffffc); (0x5, 0x1ffffffffffffd);
  (0x19, 0x1fffffffffffe9); (0x19, 0x1fffffffffffec); (0x19, 0x1ffffffffffffa); (0x7d, 0x1ffffffffffffa);
  (0x7d, 0x1fffffffffff84); (0x7d, 0x1fffffffffffc6); (0x271, 0x1fffffffffffc6); (0x271, 0x1ffffffffffdf3);
  (0x271, 0x1ffffffffffe42); (0x271, 0x1fffffffffffa2); (0xc35, 0x1ffffffffff84f); (0xc35, 0x1ffffffffffb70);
  (0xc35, 0x1ffffffffff6e6); (0x3d09, 0x1fffffffffeab1); (0x3d09, 0x1fffffffffe86c); (0x3d09, 0x1fffffffffc8c5);
  (0x1312d, 0x1fffffffff4eb3); (0x1312d, 0x1fffffffffd776); (0x1312d, 0x1fffffffff8341); (0x1312d, 0x1ffffffffff1bd);
  (0x5f5e1, 0x1ffffffffd8f63); (0x5f5e1, 0x1ffffffffb6447); (0x5f5e1, 0x1ffffffffa4eb9); (0x1dcd65, 0x1fffffffe86d16);
  (0x1dcd65, 0x1fffffffedd830); (0x1dcd65, 0x1ffffffff08dbd); (0x9502f9, 0x1fffffff97258e); (0x9502f9, 0x1fffffffe301d1);
  (0x9502f9, 0x1fffffffbe6e76); (0x9502f9, 0x1ffffffff6a645); (0x2e90edd, 0x1fffffff61a34c); (0x2e90edd, 0x1ffffffe9e3abe);
  (0x2e90edd, 0x1ffffffe3c8677); (0xe8d4a51, 0x1ffffff2984b03); (0xe8d4a51, 0x1fffffff8033c2); (0xe8d4a51, 0x1ffffffead82f9);
  (0x48c27395, 0x1fffffc47859b5); (0x48c27395, 0x1fffffcb55a679); (0x48c27395, 0x1fffffcec44cdb); (0x48c27395, 0x1fffffd07ba00c);
  (0x16bcc41e9, 0x1fffffd07ba00c); (0x16bcc41e9, 0x1ffffed2aeb51b); (0x16bcc41e9, 0x1fffff09ae6097); (0x71afd498d, 0x1ffffd9de21eae);
  (0x71afd498d, 0x1fffff252e3655); (0x71afd498d, 0x1ffffc5b559d62); (0x2386f26fc1, 0x1fffee255b0a48); (0x2386f26fc1, 0x1ffffe83e7f5af);
  (0x2386f26fc1, 0x1ffff4efb53382); (0x2386f26fc1, 0x1fffde62229a8b); (0xb1a2bc2ec5, 0x1fff97543dbb09); (0xb1a2bc2ec5, 0x1fff7a49fb36ad);
  (0xb1a2bc2ec5, 0x1fff6bc4d9f47f); (0x3782dace9d9, 0x1ffe087f6196f5); (0x3782dace9d9, 0x1ffeb2df8d24a3); (0x3782dace9d9, 0x1fff080fa2eb7a);
  (0x1158e460913d, 0x1fff080fa2eb7a); (0x1158e460913d, 0x1ffd7690d759f9); (0x1158e460913d, 0x1ff4015f41489a); (0x1158e460913d, 0x1ff7f338a68889);
  (0x56bc75e2d631, 0x1fe69a5445f74c); (0x56bc75e2d631, 0x1fdfe6cec84ea5); (0x56bc75e2d631, 0x1fb12ed1180f39); (0x1b1ae4d6e2ef5, 0x1e563cf98cb675);
  (0x1b1ae4d6e2ef5, 0x1f43165c5d1952); (0x1b1ae4d6e2ef5, 0x1ee0abe70e3346); (0x878678326eac9, 0x19cba0fec3a667); (0x878678326eac9, 0x199a6bc41c3361);
  (0x878678326eac9, 0x1981d126c879de); (0x878678326eac9, 0x1db1b799b21281); (0x42fe672e998a3, 0x1dca523705cc04); (0x1744f601561748, 0x13150f8e6c7ea5);
  (0xba27b00ab0ba4, 0x1eb78a8f178a49); (0x1c6214cc516e30, 0x772948dc17301); (0x1d163381ab9d1a, 0x772948dc17301); (0xe8b19c0d5ce8d, 0x15fdae4e97418e);
  (0x1ff60074a2df2a, 0x5a0f5aad1775); (0x12175c5a5ffc53, 0x12716bb50d13c8); (0x1b501234e68637, 0x938b5da8689e4); (0x1fec6d2229cb29, 0x49c5aed4344f2);
  (0xd7b016d1cb761, 0x170dc6a25058ba); (0x1901e4be44e3be, 0xb86e351282c5d); (0xc80f25f2271df, 0x1807d5b04a9e3c); (0xfa0f0dfa4582, 0x1f42da1c63891b);
  (0x7d0786fd22c1, 0x1fbfe1a360abdc); (0x1f03da2a578b4d, 0x1e86d2a35a688c); (0x1ffde93851d0cf, 0x1d8cc39560230a); (0x1ffde93851d0cf, 0xec661cab01185);
  (0x1762258180f12a, 0xec661cab01185); (0x1eb5966a55fa79, 0x62a9e13df31e0); (0x1eb5966a55fa79, 0x3154f09ef98f0); (0x1eb5966a55fa79, 0x18aa784f7cc78);
  (0x1f7aea2cd1e0b5, 0xc553c27be63c); (0x1d2aeee55e2e01, 0x3daa2cc6b7f2c); (0x1f18404b93ed97, 0x1ed516635bf96); (0x1f18404b93ed97, 0xf6a8b31adfcb);
  (0x1d2aeee55e2e01, 0x4d14b7f865ef7); (0x1f71ffb1056361, 0x4d14b7f865ef7); (0x1f71ffb1056361, 0x1221a59845e12c); (0x15cf68b1f8a573, 0x16f2f117cc4023);
  (0x16612ce4e272cb, 0x16f2f117cc4023); (0x16612ce4e272cb, 0x16aa0efe575977); (0x16612ce4e272cb, 0x16859df19ce621); (0x16612ce4e272cb, 0x1717622486b379);
  (0x16612ce4e272cb, 0x16bc4784b49322); (0x16612ce4e272cb, 0xb5e23c25a4991); (0xb03092288293a, 0x17cd97642af427); (0x581849144149d, 0x1d4f1bf56f08c4);
  (0x581849144149d, 0x1f2c1bae83c239); (0x581849144149d, 0x1d39a15b74f102); (0x581849144149d, 0x1f215e6186b658); (0x581849144149d, 0x1a93b8534b8466);
  (0x1dce69dd72000a, 0x184ce54c2deb6d); (0x1b8796d6546711, 0x184ce54c2deb6d); (0x19ea3e1141293f, 0x184ce54c2deb6d); (0x191b91aeb78a56, 0x184ce54c2deb6d);
  (0x191b91aeb78a56, 0x151233c2076fc9); (0xc8dc8d75bc52b, 0x151233c2076fc9); (0xc8dc8d75bc52b, 0x1d5dc7240d5fa5); (0x1cb3408a1c2f5f, 0x442357555d54f);
  (0x1d415b5fba8244, 0x442357555d54f); (0xea0adafdd4122, 0x12e2e325331671); (0x75056d7eea091, 0x1a3339fd21b702); (0x1c0d474cfd7837, 0x442357555d54f);
  (0x1027be6129a6c3, 0x1469f3d67f7c12); (0x1a5cb84c6964cc, 0xa34f9eb3fbe09); (0x1a5cb84c6964cc, 0x18ac294bd55161); (0xd2e5c2634b266, 0x18ac294bd55161);
  (0x6972e131a5933, 0x1f43575eefaa94); (0x1b08f0094136b, 0x1f43575eefaa94); (0x11523ab00be8b5, 0xfa1abaf77d54a); (0x19231087c7d35a, 0x7d0d5d7bbeaa5);
  (0x1c3333f35bbef7, 0x7d0d5d7bbeaa5); (0x14625e1b9fd452, 0x12b1cf1b0bc0e7); (0xa312f0dcfea29, 0x1ce2fe28dbab10); (0xa312f0dcfea29, 0x18a2ae223dbfb1);
  (0x1db45b23f9f9f2, 0x44050069deb5f); (0x1b9b1da5d6bf16, 0x1fdb6dac74aa75); (0xdcd8ed2eb5f8b, 0x1fdb6dac74aa75); (0x54ceec5af88cd, 0x1fdb6dac74aa75);
  (0x12942e391219a1, 0x1fdb6dac74aa75); (0x12942e391219a1, 0x1937cdf2c3620b); (0x15e5fe15eabdd6, 0x1937cdf2c3620b); (0x15e5fe15eabdd6, 0x10990f503b3509);
  (0xaf2ff0af55eeb, 0x1b8c0e5b3093f4); (0xaf2ff0af55eeb, 0x18b906388da8e5); (0x1e05f4fe3d31b2, 0x18b906388da8e5); (0xf02fa7f1e98d9, 0x18b906388da8e5);
  (0x13de005bd620df, 0x18b906388da8e5); (0x13de005bd620df, 0x18471d4f95a81e); (0x13de005bd620df, 0xc238ea7cad40f); (0x13de005bd620df, 0x1000c781d07a77);
  (0x13de005bd620df, 0x11ef63eed34dab); (0x13de005bd620df, 0x1e12f2969e21ba); (0x13de005bd620df, 0xf09794b4f10dd); (0x13de005bd620df, 0x1173bcd39298de);
  (0x13de005bd620df, 0x1ba8af0e5a99b9); (0x13de005bd620df, 0x17c357b5185d4c); (0x13de005bd620df, 0x1fbfac36624f85); (0x1c3da07aab05d6, 0x3e55759423c6d);
  (0x15e97eefd9fbc5, 0x19ced6491c3832); (0x15e97eefd9fbc5, 0xce76b248e1c19); (0x1e4fe02ec22808, 0xce76b248e1c19); (0x1eeb92bb25db71, 0x866613ee82c43);
  (0x1c0f5b3bef301d, 0x866613ee82c43); (0x1c0f5b3bef301d, 0x123ade3d6bae30); (0x1eeb92bb25db71, 0x123ade3d6bae30); (0x1eeb92bb25db71, 0x91d6f1eb5d718);
  (0x1eeb92bb25db71, 0x48eb78f5aeb8c); (0x15ce239c700459, 0x16c995ccc699bc); (0x15ce239c700459, 0xb64cae6634cde); (0x1b80890fa1aac8, 0x5b2657331a66f);
  (0x1ed774e165c8b1, 0x5b2657331a66f); (0x19250f6e342242, 0x1c7bfb3ff8402b); (0xc9287b71a1121, 0x1c7bfb3ff8402b); (0xc9287b71a1121, 0x1487417b8928a6);
  (0x1dc2dd60df1bde, 0x356ebd1c41de9); (0xee16eb06f8def, 0x12385a8233abd8); (0x17fd9bf18963db, 0x91c2d4119d5ec); (0x14a6b01fc545f2, 0xc731912ddf3d5);
  (0xa53580fe2a2f9, 0x16c67122c096ce); (0x15b690a142ee60, 0xb633891604b67); (0x943778e64fa8b, 0x17d651a43e3f3c); (0x152ea060841a29, 0xbeb28d21f1f9e);
  (0x1b2434c993a9f8, 0x5f594690f8fcf); (0xd921a64c9d4fc, 0x1387aecdd964cb); (0x79c85fbba452d, 0x1dcbe60d4dcf0b); (0x1a50bc003e4f49, 0x12b43604840a1c);
  (0x1a50bc003e4f49, 0x95a1b0242050e); (0x1a50bc003e4f49, 0x1471cb0b0bc9fd); (0x1a50bc003e4f49, 0x17614385a50ca3); (0x1a50bc003e4f49, 0x18d8ffc2f1adf6);
  (0x177bc3d4ca153, 0x1fc5abb8dcb261); (0x177bc3d4ca153, 0x1f4c0e6012f718); (0x177bc3d4ca153, 0x1fcb1dd2546a1d); (0x10a16d07d085b8, 0x1fcb1dd2546a1d);
  (0x121929451d270b, 0x1cdba557bb2777); (0x121929451d270b, 0x177a674e6c2741); (0x14c9c849c4a726, 0x177a674e6c2741); (0xf688a4075a6f0, 0x1cdba557bb2777);
  (0x7b445203ad378, 0x1cdba557bb2777); (0x3da22901d69bc, 0x1cdba557bb2777); (0x3da22901d69bc, 0x1cba2dd335614b); (0x1ed11480eb4de, 0x1ea73f1b441629);
  (0xf688a4075a6f, 0x1f9dc7bf4b7098); (0xf688a4075a6f, 0x1f376e201b5f3c); (0xf688a4075a6f, 0x1fda4bf8d44a3d); (0xf688a4075a6f, 0x1fd0f48ee37946);
  (0xf688a4075a6f, 0x1f510487e76393); (0x4d0ab3424c42b, 0x1c6d6a9bd15446); (0x4d0ab3424c42b, 0x1ca8b6ea56f6a4); (0x4d0ab3424c42b, 0x1cc65d1199c7d3);
  (0x18135804b7d4d7, 0x1cc65d1199c7d3); (0x1a6cda8b28ce55, 0x1cc65d1199c7d3); (0x1b999bce614b14, 0x1cc65d1199c7d3); (0xdcccde730a58a, 0x1cc65d1199c7d3);
  (0xb734b60bfac0c, 0x1cc65d1199c7d3); (0x5b9a5b05fd606, 0x1cc65d1199c7d3); (0x2dcd2d82feb03, 0x1fa32fe9c9b2d6); (0xe501e38ef970f, 0x19e98a3969dcd0);
  (0x1b44e355a48577, 0xcf4c51cb4ee68); (0x1b44e355a48577, 0x67a628e5a7734); (0x14ca80c74a0e43, 0xb996c007a45c1); (0x14ca80c74a0e43, 0x1031f663e22a02);
  (0x1ce37bf93b2344, 0x818fb31f11501); (0x1ea3b4607fbba4, 0x818fb31f11501); (0x1fbbcdf55e6f25, 0x1c03867449860); (0x1fbbcdf55e6f25, 0xe01c33a24c30);
  (0x1fbbcdf55e6f25, 0x700e19d12618); (0x1fbb0c8beb0489, 0x700e19d12618); (0x1ff31398d39795, 0x38070ce8930c); (0x1ff31398d39795, 0x1c0386744986);
  (0x1fef4c89928289, 0x1c0386744986); (0x1ffd4e4ccca74c, 0xe01c33a24c3); (0x1ff8a9d4b84212, 0xe01c33a24c3); (0x1ff65798ae0f75, 0xe01c33a24c3);
  (0x1fe855d573eab2, 0x4608d022b7cf); (0x1fd22a12979a3f, 0x4608d022b7cf); (0x1fea18993acded, 0x4608d022b7cf); (0x1fa40fc918161e, 0x15e2c10ad970b);
  (0x1d7fc08b53f17d, 0x1eddec9c018888); (0x1d7fc08b53f17d, 0xf6ef64e00c444); (0xe10ca3d532d39, 0x14e7a690b72070); (0xe10ca3d532d39, 0x18849d85aebd71);
  (0xe10ca3d532d39, 0x134ab3e180f555); (0x10adbf0f6a1147, 0x134ab3e180f555); (0x10adbf0f6a1147, 0x1dbe8729dc858d); (0x10adbf0f6a1147, 0x1736231ca34b6a);
  (0x10adbf0f6a1147, 0x1c48d09dbbb6fc); (0x195d63857a19da, 0xb9b118e51a5b5); (0x1849c3510eb2a2, 0xb9b118e51a5b5); (0x17bff336d8ff06, 0xb9b118e51a5b5);
  (0x17bff336d8ff06, 0xa877159e63e7d); (0xbdff99b6c7f83, 0x16676af552be00); (0xbdff99b6c7f83, 0x1713af1615de83); (0xbdff99b6c7f83, 0x1d59cdf42dae86);
  (0x12261879844f86, 0x1713af1615de83); (0x9130c3cc227c3, 0x1713af1615de83); (0x9130c3cc227c3, 0x192669e62e2ae6); (0x1d4bdf865ec3ac, 0x10135da96c0323);
  (0x1eb94d6c9b64f9, 0x10135da96c0323); (0x1766558b03b40e, 0x10135da96c0323); (0x148b79be8a7174, 0x10135da96c0323); (0x1a591a88b13bdd, 0x10135da96c0323);
  (0x15363c190e9f80, 0x10135da96c0323); (0xa9b1e0c874fc0, 0x1aae7bb5f352e3); (0xa9b1e0c874fc0, 0x1b593e107780ef); (0x54d8f0643a7e0, 0x1b593e107780ef);
  (0x2a6c78321d3f0, 0x1e0005939954df); (0xd41e58fa923b0, 0x160baf0a33d90f); (0x6a0f2c7d491d8, 0x1caca1d2086ae7); (0x3507963ea48ec, 0x1ffd1b35f2b3d3);
  (0x10925ef3936c9c, 0x12bb35a6499023); (0x8492f79c9b64e, 0x1b046520134671); (0x42497bce4db27, 0x1f28fcdcf82198); (0x42497bce4db27, 0x1c0245a52aa241);
  (0x14b6f6b07847c3, 0xf947e6e7c10cc); (0x14b6f6b07847c3, 0x1c8135e7b65029); (0x14b6f6b07847c3, 0x189c164c174bf6); (0x1d9178e58c1706, 0x3e51f9b9f0433);
  (0x1e5d3ae1421c4f, 0x3e51f9b9f0433); (0x1cd08c114d9cda, 0x3e51f9b9f0433); (0x11212d3e709041, 0x13799e0a1b14ff); (0x11212d3e709041, 0x124d65a445d2a0);
  (0x1a47e010937991, 0x926b2d222e950); (0x1faed954af721c, 0x12c3865d5425f); (0x15b486a78204e9, 0x16e0bf0d574748); (0x15b486a78204e9, 0xb705f86aba3a4);
  (0x1b6cb66ad7d6bb, 0x5b82fc355d1d2); (0x1b6cb66ad7d6bb, 0x1c98eed0ad191a); (0x1b6cb66ad7d6bb, 0xe4c7768568c8d); (0x14dc96e99731a4, 0xe4c7768568c8d);
  (0x6901f8140a517, 0x198d7880ec3b20); (0x6901f8140a517, 0x19e6fb42f767be); (0x1a13bca3fcfe0d, 0x13839d22bc58f6); (0x6901f8140a517, 0x1ff0d6a12749e8);
  (0x6901f8140a517, 0x1d18aa5314ef22); (0x1bac942c0bc1bf, 0x151c74aacb1ca8); (0x1bac942c0bc1bf, 0xa8e3a55658e54); (0x16426330ddab1f, 0xa8e3a55658e54);
  (0x1b89805b907249, 0x5471d2ab2c72a); (0x1e2d0ef0e9d5de, 0x2a38e95596395); (0x18e5f1c6370eb4, 0xd31c8eabef1e9); (0x19a4c1cdda7943, 0xd31c8eabef1e9);
  (0x136b455c4cb596, 0xd31c8eabef1e9); (0x136b455c4cb596, 0x1b2261dd214e61); (0x9b5a2ae265acb, 0x1b2261dd214e61); (0x9b5a2ae265acb, 0x1c21a4f3ca2f61);
  (0x9b5a2ae265acb, 0x1ca1467f1e9fe1); (0x1da08995c780e1, 0x12eba3d0f84516); (0x1da08995c780e1, 0x975d1e87c228b); (0x1d00ffa79df441, 0x975d1e87c228b);
  (0x138b2dbf21d1b6, 0x1bc1ebcb4adb01); (0x9c596df90e8db, 0x1bc1ebcb4adb01); (0x9c596df90e8db, 0x1c895834fecac9); (0x14529a28d5c17e, 0x1c895834fecac9);
  (0xa294d146ae0bf, 0x1c895834fecac9); (0x135952a4b4d5c4, 0x1c895834fecac9); (0x9aca9525a6ae2, 0x1c895834fecac9); (0xa294d146ae0bf, 0x1c0cb472ee54ec);
  (0x182fa74de20b35, 0xe065a39772a76); (0x1f32d46a9da070, 0x7032d1cbb953b); (0xa294d146ae0bf, 0x18e6947b3f0968); (0xa294d146ae0bf, 0x169c97520a6573);
  (0x1062f2333aa319, 0x169c97520a6573); (0x19e7ecead75a53, 0x639a51ecfc25a); (0x1d04bf7a3f3b80, 0x31cd28f67e12d); (0x1e127c8a2703a1, 0x31cd28f67e12d);
  (0x19ee1f3aff15ee, 0x1d0af1ca66f71b); (0xd7ad4fd5f913a, 0x1d0af1ca66f71b); (0x6bd6a7eafc89d, 0x1d0af1ca66f71b); (0x11e42e248b5fdc, 0x1d0af1ca66f71b);
  (0x1f5f0321eaf116, 0x1d0af1ca66f71b); (0xfaf8190f5788b, 0x1d0af1ca66f71b); (0x165d39adae37d3, 0x1d0af1ca66f71b); (0xfaf8190f5788b, 0x11b516fea643dd);
  (0xfaf8190f5788b, 0x10b24c47cdde34); (0x1808a7b4dc67a5, 0x8592623e6ef1a); (0x1808a7b4dc67a5, 0x1c353ac6cfdf32); (0x7565b6d0e8971, 0x1c353ac6cfdf32);
  (0x1570f8d076790a, 0xe1a9d6367ef99); (0x18d319cba32c1e, 0xe1a9d6367ef99); (0x120ed7d549c5f6, 0x117cbe5e94a2ad); (0x1a842a493985a8, 0x117cbe5e94a2ad);
  (0xd4215249cc2d4, 0x1ebed383316581); (0x4ccc2b0ad0322, 0x1ebed383316581); (0x2666158568191, 0x1ebed383316581); (0x10929a6dc3f389, 0x1ebed383316581);
  (0x10929a6dc3f389, 0x17a8b6f87aac85); (0x1a0f1850d12e16, 0x1ebed383316581); (0xd078c2868970b, 0x1ebed383316581); (0xd078c2868970b, 0x15e32fd5ccfe46);
  (0x42be87b042fd0, 0x1fc678f1e974b7); (0x215f43d8217e8, 0x1fc678f1e974b7); (0x10afa1ec10bf4, 0x1fc678f1e974b7); (0x536e299c53bc4, 0x1ebb7ed32868c3);
  (0x29b714ce29de2, 0x1ebb7ed32868c3); (0x14db8a6714ef1, 0x1ebb7ed32868c3); (0x1d0dd23d39f144, 0x1bc01996c8a253); (0x6849b40368ab5, 0x1bc01996c8a253);
  (0x11225a6b7f9684, 0x1bc01996c8a253); (0x8912d35bfcb42, 0x1bc01996c8a253); (0x1e8a764b8774fc, 0x20c91f589408d); (0x156af1065f7c25, 0x177782fbe8bcb2);
  (0x156af1065f7c25, 0xbbbc17df45e59); (0x9af2f886b1dcc, 0x1d9d38dc847e59); (0x4d797c4358ee6, 0x1d9d38dc847e59); (0x26bcbe21ac773, 0x1d9d38dc847e59);
  (0x26bcbe21ac773, 0x1e8b49abf04f98); (0xc1afb6a85e53f, 0x19b3b1e7bac0b2); (0x18f4d45e634598, 0xcd9d8f3dd6059); (0xc7a6a2f31a2cc, 0x195443230f0325);
  (0xbbb8ca5da27b2, 0x195443230f0325); (0x1f320975fc16fe, 0x195443230f0325); (0xf9904bafe0b7f, 0x195443230f0325); (0x1d54df9ea1633d, 0x9bb3e6810f7a6);
  (0x1d54df9ea1633d, 0x4dd9f34087bd3); (0x1fb21d056e6301, 0x4dd9f34087bd3); (0x15f6de9d5d6b5b, 0x18541c042a6b1f); (0x17257d50c3eb3d, 0x18541c042a6b1f);
  (0x17257d50c3eb3d, 0x17bcccaa772b2e); (0x17257d50c3eb3d, 0xbde66553b9597); (0x15f6de9d5d6b5b, 0xc75b5aeeed588); (0x1c31b974d4d61f, 0x63adad7776ac4);
  (0x1f4f26e0908b81, 0x31d6d6bbbb562); (0x15f6de9d5d6b5b, 0xf93231aaa8aea); (0x1dc0702ab2b0d0, 0x7c9918d554575); (0x16a9c9a2ae9ddd, 0x1e735b3003e352);
  (0x15f6de9d5d6b5b, 0x1e735b3003e352); (0x15f6de9d5d6b5b, 0xf39ad9801f1a9); (0x1298461aafae82, 0xf39ad9801f1a9); (0x1885d0a559c8ea, 0xf39ad9801f1a9);
  (0x1f4301aab5429c, 0xf39ad9801f1a9); (0x1edb2e6d5c92f7, 0xf39ad9801f1a9); (0x170a6e02af4250, 0xf39ad9801f1a9); (0x17da147d60a19a, 0xf39ad9801f1a9);
  (0x1b26b7d6b24276, 0xf39ad9801f1a9); (0x1ccd09835b12e4, 0xf39ad9801f1a9); (0xd935beb59213b, 0x15d2f44aa53361); (0xd935beb59213b, 0x1f468406584b89);
  (0xd935beb59213b, 0x166ceff8d8b662); (0x18c9d3e7c57c6c, 0xb3677fc6c5b31); (0x18c9d3e7c57c6c, 0x1f468406584b89); (0xc64e9f3e2be36, 0x1f468406584b89);
  (0x63274f9f15f1b, 0x1f468406584b89); (0x1efc48e1b6db87, 0xcaf2518842e38); (0x1efc48e1b6db87, 0x657928c42171c); (0x1efc48e1b6db87, 0x32bc946210b8e);
  (0x1bd07f9b95cff9, 0xfdaee5ea539c6); (0x1bd07f9b95cff9, 0x7ed772f529ce3); (0x11defb6574366e, 0x19cc7294c6d351); (0x8ef7db2ba1b37, 0x19cc7294c6d351);
  (0x12e101e8dbb4c2, 0x19cc7294c6d351); (0x97080f46dda61, 0x19cc7294c6d351); (0x1b0efab908313a, 0x119e79c49a56d9); (0x1ed69325cc4af5, 0x82df8d02c7c78);
  (0x1ed69325cc4af5, 0x416fc68163e3c); (0x1ed69325cc4af5, 0x20b7e340b1f1e); (0x1ccb14f1c12bd7, 0xa397704379b96); (0x1ccb14f1c12bd7, 0x51cbb821bcdcb);
  (0x1b2d5f3e261867, 0x51cbb821bcdcb); (0x10250d6020f319, 0x1541c8e23cc0e4); (0x10250d6020f319, 0x198fa98a8b04f7); (0x10250d6020f319, 0x14da5b7555fc08);
  (0x10250d6020f319, 0x1a923b1acbf11d); (0x1c975e3b4dc969, 0x4b54e153508ef); (0x155ba43d76721b, 0x1a10f252ab7b0a); (0x155ba43d76721b, 0xd08792955bd85);
  (0x8532b1420b496, 0x1fddb17e29e141); (0x429958a105a4b, 0x1fddb17e29e141); (0x429958a105a4b, 0x1e8064224e2ca7); (0x1dd1bd7460525a, 0x19a827ea4ff80f);
  (0x14cfebb251c377, 0xd2b674c1ee92e); (0x1b659f5861380e, 0x695b3a60f7497); (0x1448835240109e, 0x1ade36f84f8535); (0x1448835240109e, 0xca3feec0d3655);
  (0xa2441a920084f, 0x16c840952d3ea4); (0xa2441a920084f, 0x1faca39cd6aff0); (0x1ff73cd7ad505e, 0x13fdea1769703); (0x18bab4d614c944, 0x19fa93778b6047);
  (0xc5d5a6b0a64a2, 0x19fa93778b6047); (0x62ead35853251, 0x19fa93778b6047); (0x1ee9620b99fb95, 0x13fdea1769703); (0x1ee9620b99fb95, 0x1014a05688494c);
  (0x1ee9620b99fb95, 0x80a502b4424a6); (0x16df11e055d6ef, 0x11547ef7fee04f); (0x16df11e055d6ef, 0x1419c86c2a5b9f); (0x157c6d26401947, 0x1419c86c2a5b9f);
  (0x157c6d26401947, 0xe8f3583d364ff); (0x157c6d26401947, 0x1205d15509bf23); (0x157c6d26401947, 0x13c11f3da4ec35); (0x157c6d26401947, 0x149ec631f282be);
  (0x157c6d26401947, 0x11282a60bc289a); (0x157c6d26401947, 0x1e1082569e2d94); (0x157c6d26401947, 0xf08412b4f16ca); (0x6742bfaf1027d, 0x1dfc11fbf46087);
  (0x6742bfaf1027d, 0x1f2076f154b67c); (0x160467739b5dbb, 0xf903b78aa5b3e); (0x10b4a06e0ab133, 0xf903b78aa5b3e); (0x187cbe2a5fded2, 0x7c81dbc552d9f);
  (0x1bce9a8dda4aa7, 0x7c81dbc552d9f); (0x199379e16ce9c2, 0x7c81dbc552d9f); (0x23b20ac6d60e5, 0x1dfc11fbf46087); (0x16ccfb59790365, 0x1491daad0ba280);
  (0x16ccfb59790365, 0xa48ed5685d140); (0x1fb97e0b2e86f9, 0xa48ed5685d140); (0x1fb97e0b2e86f9, 0x52476ab42e8a0); (0x1fb97e0b2e86f9, 0x2923b55a17450);
  (0x1e0fdf7e5feb3d, 0x2923b55a17450); (0x1f58fd2930a565, 0x1491daad0ba28); (0x1ffd8bfe990279, 0xa48ed5685d14); (0x1ffd8bfe990279, 0x52476ab42e8a);
  (0x1fb66caa288347, 0x52476ab42e8a); (0x1fdf905f829a8c, 0x2923b55a1745); (0x1fd89751984cf5, 0x2923b55a1745); (0x1faf739c3e35b0, 0xcdb28ac27459);
  (0x1fe9aca55031cc, 0xcdb28ac27459); (0x1f39169f16bb81, 0xcdb28ac27459); (0x1c024c740cea1d, 0x4047cb5cc45bd); (0x1c10dab6516924, 0x4047cb5cc45bd);
  (0x1e1a603259cb86, 0x4047cb5cc45bd); (0x161166c6c1400c, 0x14166f8cfd5cb1); (0x1f1f22f05dfcb7, 0x14166f8cfd5cb1); (0x199ac93eadacb4, 0x14166f8cfd5cb1);
  (0xccd649f56d65a, 0x14166f8cfd5cb1); (0xccd649f56d65a, 0x179fd204e9c959); (0x666b24fab6b2d, 0x1e068454953486); (0x666b24fab6b2d, 0x1bd0a6c9a1709d);
  (0x430d4c4b7a744, 0x1bd0a6c9a1709d); (0x2186a625bd3a2, 0x1de9112bfd443f); (0x1ef5465d2b2e10, 0x1de9112bfd443f); (0x10c35312de9d1, 0x1f29db26ae1ffa);
  (0x10c35312de9d1, 0x1f4c0b7507c33c); (0x10c35312de9d1, 0x1f5d239c3494dd); (0x13594bfa3afcca, 0x124d16c90d12f9); (0x10c35312de9d1, 0x1fc999fa084f54);
  (0x10c35312de9d1, 0x1f9beadeb4dae9); (0x17a9846032c714, 0x169d4f2f04dd43); (0x17a9846032c714, 0x126c7a6a4d35ff); (0xbd4c23019638a, 0x1e413c9a669989);
  (0x5ea61180cb1c5, 0x1e413c9a669989); (0x1d93e5783f78d9, 0xc82195240843a); (0x1d93e5783f78d9, 0x6410ca920421d); (0x1d93e5783f78d9, 0x11ea7910afdd7b);
  (0x1d93e5783f78d9, 0x17bf2f4477ab2a); (0x1d278f02e7046b, 0x17bf2f4477ab2a); (0x1d278f02e7046b, 0xbdf97a23bd595); (0x14839352916d00, 0xbdf97a23bd595);
  (0x8a3fbb055976b, 0x18ce0769d4ce3d); (0x8a3fbb055976b, 0x195cfd3d6aca3f); (0x11007c76e030d5, 0x195cfd3d6aca3f); (0x11007c76e030d5, 0x18ce0769d4ce3d);
  (0x11007c76e030d5, 0x14e741f05a7f89); (0x11007c76e030d5, 0x12f3df339d582f); (0x11007c76e030d5, 0x11fa2dd53ec482); (0x1f13e4d2a4a6a3, 0x11fa2dd53ec482);
  (0x1f13e4d2a4a6a3, 0x8fd16ea9f6241); (0x1d0594c94166b3, 0x8fd16ea9f6241); (0x20e5009633ff0, 0x1e8d4253662bb5); (0x1072804b19ff8, 0x1f946a5817cbad);
  (0x83940258cffc, 0x1f946a5817cbad); (0x83940258cffc, 0x1ff96d7977ee35); (0x41ca012c67fe, 0x1ff96d7977ee35); (0x20e5009633ff, 0x1ff96d7977ee35);
  (0x20e5009633ff, 0x1ffc1585c8409e); (0xa47902ef03fb, 0x1f7881836f70a2); (0xa47902ef03fb, 0x1fcc120b0f1bd4); (0x1d63f64322e181, 0x1cbf7d4033dd86);
  (0x1f51614befed72, 0x1c1b043d44d98b); (0xfa8b0a5f7f6b9, 0x1c1b043d44d98b); (0xfa8b0a5f7f6b9, 0x15e1da719e6822); (0x19183780497c09, 0x1c1b043d44d98b);
  (0x1a999ddec72aca, 0x1c1b043d44d98b); (0xd4cceef639565, 0x1c1b043d44d98b); (0xd4cceef639565, 0x14b3e996543778); (0xd4cceef639565, 0x17b6b6534f94fa);
  (0xd4cceef639565, 0x19282a190b5fe2); (0xd4cceef639565, 0x19e0e3fbe94556); (0xd4cceef639565, 0x16fdfc7071af86); (0xd4cceef639565, 0x18cbcd279c6d28);
  (0xd4cceef639565, 0x19b2b58331cbf9); (0xd4cceef639565, 0x16171414dc50b5); (0xd4cceef639565, 0x1efec071838872); (0xd4cceef639565, 0x1ccc2f2825599e);
  (0xd4cceef639565, 0x1bb2e683764234); (0x174dc3f0b9e48c, 0xe66179412accf); (0x1a0cf98c6f9f15, 0xe66179412accf); (0x143988904125f2, 0xe66179412accf);
  (0x1d2134ece85daf, 0x892a697e433ac); (0x1d2134ece85daf, 0x449534bf219d6); (0x1f45de92e16a9a, 0x224a9a5f90ceb); (0x1f45de92e16a9a, 0xab7503ddd4097);
  (0x1a5a3f874df5e4, 0xab7503ddd4097); (0xd2d1fc3a6faf2, 0x17e47001843b89); (0x6968fe1d37d79, 0x1e7affe357b902); (0xfa2ef4970b54d, 0x114de01fb0be10);
  (0x1849df59491455, 0x8a6f00fd85f08); (0x1c9d57613543d9, 0x4537807ec2f84); (0x1e9884180d7fd5, 0x4537807ec2f84); (0x1e9884180d7fd5, 0x229bc03f617c2);
  (0x1fad621a088bb6, 0x114de01fb0be1); (0x1e9884180d7fd5, 0x5685609e73b65); (0x1cd11924c8d467, 0x5685609e73b65); (0x1bed63ab267eb0, 0x5685609e73b65);
  (0x135f07df7a7abd, 0x18c75de961b622); (0x32605c1c4c88e, 0x1e2fb3f348f187); (0x1fc2b6d42b55ce, 0x1e2fb3f348f187); (0xfe15b6a15aae7, 0x1e2fb3f348f187);
  (0x19302e0e26447, 0x1e996fd70231ea); (0x19302e0e26447, 0x1f0ad4b45903bb); (0x1507f46d44e0d6, 0x1374f18c627c8f); (0x182dfa2f09a964, 0x104eebca9db401);
  (0xc16fd1784d4b2, 0x1c65e8e22288b3); (0x60b7e8bc26a59, 0x1c65e8e22288b3); (0x1e3978bacc13bd, 0xa436d3edb49a8); (0x1e3978bacc13bd, 0x521b69f6da4d4);
  (0x1e3978bacc13bd, 0x290db4fb6d26a); (0x1f81e662a77cf2, 0x1486da7db6935); (0x1ba89d6b154153, 0x66a2447490e09); (0x110960d92f27ae, 0x177385207835b7);
  (0x1ff8358d0fc98e, 0x177385207835b7); (0x884b06c9793d7, 0x178e04f7d5b256); (0x884b06c9793d7, 0x1cd063551a00d9); (0x884b06c9793d7, 0x1b2f3a4d705e2f);
  (0xf6837d1858504, 0x1b2f3a4d705e2f); (0x7b41be8c2c282, 0x1b2f3a4d705e2f); (0x1f094841d1bf70, 0x1b2f3a4d705e2f); (0xf84a420e8dfb8, 0x1b2f3a4d705e2f);
  (0x135eb2154a40f9, 0x137b1e64ad9bad); (0x135eb2154a40f9, 0x136ce83cfbee53); (0x1365cd292317a6, 0x136ce83cfbee53); (0x135eb2154a40f9, 0x1382397886725a);
  (0x135eb2154a40f9, 0x1d1fced18d7a26); (0x135eb2154a40f9, 0xe8fe768c6bd13); (0x1cfc476e5148c5, 0x4f2520fbfb547); (0x10f74cbf087f06, 0x15e99ecec8344d);
  (0x87ba65f843f83, 0x1e65452e4c73d0); (0x87ba65f843f83, 0x17ae48f6aa796b); (0x1cfc476e5148c5, 0x6b6fc37a1fa65); (0x11d9a1d2f9a195, 0x18909e0a9b9bfa);
  (0x1e21f0d8476f92, 0xc484f054dcdfd); (0x11d9a1d2f9a195, 0x19b6477491c2c7); (0x11d9a1d2f9a195, 0x15c7f4a3c5b22e); (0x1cbd9c24dc7aac, 0xae3fa51e2d917);
  (0x17e84b338f115f, 0xae3fa51e2d917); (0x1c4a1d149bce52, 0xae3fa51e2d917); (0x190908dc30c040, 0xae3fa51e2d917); (0x17687ebffb3937, 0xae3fa51e2d917);
  (0xe250e8a4de729, 0x14276a87902b25); (0x1f4b4b133cf050, 0x11263c88ef0927); (0xfa5a5899e7828, 0x11263c88ef0927); (0xca4778afd562a, 0x14276a87902b25);
  (0x6523bc57eab15, 0x1a79a64d0ed63a); (0x138f0eec061632, 0xd3cd326876b1d); (0x1f9b2adb795769, 0x6ea976108c008); (0x1f9b2adb795769, 0x3754bb0846004);
  (0x1f9b2adb795769, 0x1baa5d8423002); (0x1f9b2adb795769, 0xdd52ec211801); (0x1c25df2af4f765, 0x4529e9ca57805); (0x1d341ab9bd9fc4, 0x4529e9ca57805);
  (0xe9a0d5cdecfe2, 0x12ecabf98447e7); (0xa476ec03957dd, 0x1fe487cf74aff6); (0xa476ec03957dd, 0x1a39b2a7f3afd8); (0x17644814332fc9, 0xd1cd953f9d7ec);
  (0x11b972ecb22fab, 0xff243e7ba57fb); (0x10d5db6a3643d3, 0xff243e7ba57fb); (0x10d5db6a3643d3, 0x10640fa8f84de7); (0x109cf5899748dd, 0x10640fa8f84de7);
  (0x10d5db6a3643d3, 0xfb95e071b5d05); (0x10d5db6a3643d3, 0x10479cb8a8d06c); (0x18f9a9c68aac09, 0x823ce5c546836); (0x1987e878181f70, 0x7958faac6f4cf);
  (0xcc3f43c0c0fb8, 0x145983e6d30487); (0x661fa1e0607dc, 0x1abb7e04d90c63); (0x1fe9e2961e274c, 0xdf789c8ccfcab); (0xff4f14b0f13a6, 0x1dec7b13dc1051);
  (0x7fa78a58789d3, 0x1dec7b13dc1051); (0x12f379dcb1cd12, 0x1dec7b13dc1051); (0x12f379dcb1cd12, 0x10f6125a6fb617); (0x979bcee58e689, 0x1a6fcf48c89ca0);
  (0x979bcee58e689, 0x16b1a492bd34d9); (0x14f0e15ef3e40d, 0xd37e7a4644e50); (0x1b8cd531260b35, 0x69bf3d2322728); (0x1edacf1a3f1ec9, 0x34df9e9191394);
  (0x1cb2f2e982b1f5, 0x34df9e9191394); (0x1e59efde0f3bbf, 0x1a6fcf48c89ca); (0x1f2d6e585580a4, 0xd37e7a4644e5); (0x1f491a3f61dd51, 0xd37e7a4644e5);
  (0x1f491a3f61dd51, 0x42178635f5879); (0x1e19b27b7ea450, 0x42178635f5879); (0x1f92bacb3cb40c, 0x42178635f5879); (0x1f92bacb3cb40c, 0x14a759f0dcba5d);
  (0xfc95d659e5a06, 0x14a759f0dcba5d); (0x7e4aeb2cf2d03, 0x1c8c08a3abe760); (0x7e4aeb2cf2d03, 0x1855eeb837e1b3); (0x7e4aeb2cf2d03, 0x1fe6ac1b21e161);
  (0x7e4aeb2cf2d03, 0x1bca5c19c7b435); (0x7e4aeb2cf2d03, 0x19bc34191a9d9f); (0xdbb3564f14370, 0x19bc34191a9d9f); (0x6dd9ab278a1b8, 0x19bc34191a9d9f);
  (0x36ecd593c50dc, 0x1d2b017256ee7b); (0x36ecd593c50dc, 0x1d1fc161afeb2f); (0x1b766ac9e286e, 0x1ed7280e4e139d); (0xdbb3564f1437, 0x1fb2db649d27d4);
  (0x44a80af8b6513, 0x1c440e0b60d6f8); (0x44a80af8b6513, 0x1f4c09c3ddffc8); (0x44a80af8b6513, 0x1c8586f0912f1d); (0x1574836db8f95f, 0x1c8586f0912f1d);
  (0x18fd052f25143e, 0x1c8586f0912f1d); (0xc7e8297928a1f, 0x1c8586f0912f1d); (0xc7e8297928a1f, 0x148204c411dc9e); (0x10f98302a5c1bf, 0x1c8586f0912f1d);
  (0x10f98302a5c1bf, 0x16bf84f99b786e); (0x1c59457f737df6, 0xb5fc27ccdbc37); (0x1c59457f737df6, 0x1c8586f0912f1d); (0xe2ca2bfb9befb, 0x1c8586f0912f1d);
  (0xe2ca2bfb9befb, 0x155914d825770c); (0x1bd4812c1a6a81, 0x72c72186bb811); (0x1fd95dd31a816b, 0x72c72186bb811); (0x1382e7f5c31cbe, 0x1aaf5a0e2ed4cf);
  (0x9c173fae18e5f, 0x1aaf5a0e2ed4cf); (0x29501e275d64e, 0x1eb436b52eebb9); (0x14a80f13aeb27, 0x1ffeb7a669d6e0); (0x1908e26bd15981, 0x17be617a966e5a);
  (0x1908e26bd15981, 0x12945db5aac1be); (0x1908e26bd15981, 0x94a2edad560df); (0x1908e26bd15981, 0x112988a3535d30); (0x7df59c87dfc51, 0x1eb436b52eebb9);
  (0x7df59c87dfc51, 0x1b292207547056); (0x1d534494a630cd, 0x1573eacc28347c); (0x1d534494a630cd, 0xab9f566141a3e); (0x7df59c87dfc51, 0x1e03bda4ea8e43);
  (0x7df59c87dfc51, 0x1ad0e57f32419b); (0x11581fa3d81ef6, 0x1ad0e57f32419b); (0x7df59c87dfc51, 0x1f9d29b7c6b497); (0x7df59c87dfc51, 0x1b9d9b88a054c5);
  (0x199dd4710d24dc, 0x11be7aa88f288b); (0x7df59c87dfc51, 0x19bd9706dbe82f); (0x7df59c87dfc51, 0x18add2302aee91); (0x7df59c87dfc51, 0x1825efc4d271c2);
  (0x13f251aae73532, 0xc12f7e26938e1); (0x1ef584b69f7475, 0x4339e19eb3c90); (0x1ef584b69f7475, 0x219cf0cf59e48); (0x1ef584b69f7475, 0x10ce7867acf24);
  (0x1ac1e69cb437e5, 0x54085a0660bb4); (0x1d62296ce73dbf, 0x2a042d03305da); (0x1eb24ad500c0ac, 0x15021681982ed); (0x1ac1e69cb437e5, 0x690a7087f8ea1);
  (0x1739eddb1971e4, 0x1dca94e3990085); (0xb9cf6ed8cb8f2, 0x1dca94e3990085); (0x5ce7b76c65c79, 0x1dca94e3990085); (0x1d086951dfce5d, 0x17fc196cd2a40c);
  (0x1d086951dfce5d, 0xbfe0cb6695206); (0x1d086951dfce5d, 0x5ff065b34a903); (0xb0b564041d354, 0x1dfb1fc8074d0f); (0x585ab2020e9aa, 0x1dfb1fc8074d0f);
  (0x2c2d5901074d5, 0x1dfb1fc8074d0f); (0xdce2bd0524829, 0x12efc987c579bb); (0x105efaac0be0f2, 0x12efc987c579bb); (0x82f7d5605f079, 0x1b1f46ddcb6a34);
  (0x82f7d5605f079, 0x1dee9e1af1960c); (0x1e2d267c5e291b, 0x5602618dfc4a1); (0x11c6a64a9ef6de, 0x1726cc637ebb7f); (0x8e353254f7b6f, 0x1726cc637ebb7f);
  (0x1c502d6fee1b48, 0x5602618dfc4a1); (0x18e862e9b696e6, 0x1e488902965b87); (0xc743174db4b73, 0x1e488902965b87); (0x7140b5bfb86d2, 0x1ae0be7c5ed725);
  (0x38a05adfdc369, 0x1e6ac42a5c9a8e); (0x38a05adfdc369, 0x1d5d78cd255aeb); (0x1073bf3d918f2a, 0x1d5d78cd255aeb); (0x38a05adfdc369, 0x1d2c6701f958ab);
  (0x38a05adfdc369, 0x1e834d0ff29bae); (0x12cbac35f71140, 0xf41a687f94dd7); (0x12cbac35f71140, 0x13e53c05f95173); (0x965d61afb88a0, 0x1d4b1220f4da13);
  (0x4b2eb0d7dc450, 0x1d4b1220f4da13); (0x177e974374d590, 0x189827137715c3); (0xbbf4ba1ba6ac8, 0x189827137715c3); (0x5dfa5d0dd3564, 0x1e77cce4544b27);
  (0x2efd2e86e9ab2, 0x1e77cce4544b27); (0xeaf1e8a29057a, 0x1e77cce4544b27); (0x7578f451482bd, 0x1e77cce4544b27); (0x7578f451482bd, 0x1a3f3d59c8e9af);
  (0x1c44ad444fcac1, 0x4388f8a8b6178); (0x1e60f509957b7d, 0x21c47c545b0bc); (0x1f6f18ec3853db, 0x10e23e2a2d85e); (0x1b368961acf263, 0x546b36d2e39d6);
  (0x1dd9e318440f4e, 0x2a359b6971ceb); (0x11904b42b92492, 0x1433a4f950417d); (0x8c825a15c9249, 0x1cfbca9aacd3c6); (0x17b5172d7e99f0, 0x1433a4f950417d);
  (0xbda8b96bf4cf8, 0x1433a4f950417d); (0x5ed45cb5fa67c, 0x1a20eac4afe7f9); (0x1da25cf8de406c, 0x1433a4f950417d); (0xed12e7c6f2036, 0x1433a4f950417d);
  (0x768973e37901b, 0x1b9c3c3787d198); (0x20620c1566ed4, 0x1ef891f312840b); (0x1031060ab376a, 0x1ffba253bdbb75); (0x818830559bb5, 0x1ffba253bdbb75);
  (0x11c32dd30a7eb4, 0x1141a5a2b4e2ff); (0x1347c6640b51d3, 0x10c01d725f474a); (0x1ba7d51d3af578, 0x8600eb92fa3a5); (0x1e940800fcc206, 0x8600eb92fa3a5);
  (0x1e940800fcc206, 0xb4c419cf17033); (0xf4a04007e6103, 0x1a96459d6fd136); (0xf4a04007e6103, 0x1c9526cf36499e); (0x1347c6640b51d3, 0x1c9526cf36499e);
  (0x1347c6640b51d3, 0xe4a93679b24cf); (0x1f13c04d6e6020, 0xe4a93679b24cf); (0x1ac392deb39559, 0xe4a93679b24cf); (0x14871323275d14, 0xe4a93679b24cf);
  (0x188e1cf92ed359, 0xe4a93679b24cf); (0x136c583064fc14, 0xe4a93679b24cf); (0x1dafe1c1f8aa9e, 0x40709d6077645); (0xed7f0e0fc554f, 0x12defab703cb94);
  (0x18476e3c7e3b19, 0x96f7d5b81e5ca); (0x1440646676c4d4, 0xd768731895c0f); (0xa2032333b626a, 0x1796b964c4be79); (0x51019199db135, 0x1ca6d27e626fae);
  (0x51019199db135, 0x1fdff4445ef3d8); (0x51019199db135, 0x1f20456f088d8b); (0x51019199db135, 0x1c3861778e81ca); (0x183c62ef02a34f, 0x132c49d564f21a);
  (0x1d4c7c08a05484, 0x3fbfe888bde7b); (0xea63e04502a42, 0x12a23c8cdc08bd); (0x7531f02281521, 0x19f55b8f041dde); (0xaaa3f7bc44bc7, 0x19f55b8f041dde);
  (0x17a4ed43465ab6, 0xcfaadc7820eef); (0x18cd2469253c4a, 0xcfaadc7820eef); (0xaaa3f7bc44bc7, 0x1b1d92b4e2ff72); (0x183908d635cb80, 0xd8ec95a717fb9);
  (0xc1c846b1ae5c0, 0x19ab4dc58c6579); (0x60e42358d72e0, 0x1fb98ffb19d859); (0x60e42358d72e0, 0x1f746182e6cd5d); (0x307211ac6b970, 0x1f746182e6cd5d);
  (0x183908d635cb8, 0x1f746182e6cd5d); (0x791d2c2f0cf98, 0x1f746182e6cd5d); (0x3c8e9617867cc, 0x1f746182e6cd5d); (0x1e474b0bc33e6, 0x1f746182e6cd5d);
  (0x9764773ad037e, 0x1f746182e6cd5d); (0x4bb23b9d681bf, 0x1f746182e6cd5d); (0x4bb23b9d681bf, 0x1b8e0a120bab0c); (0x4bb23b9d681bf, 0x1bf87036895ac3);
  (0x17a7b2a13088bb, 0xdc7050905d586); (0x17a7b2a13088bb, 0x1e8b3525b3737e); (0x17a7b2a13088bb, 0xf459a92d9b9bf); (0x1aa4ddb4d8512d, 0xf459a92d9b9bf);
  (0x14f53c23d90576, 0xf459a92d9b9bf); (0x19c038a4c63c7a, 0xf459a92d9b9bf); (0x5afa190ff4bb7, 0x1da69015a15ecb); (0x175aba644fa0f8, 0x11ab18d3505541);
  (0x1d5876057825bd, 0x11ab18d3505541); (0x1d5876057825bd, 0x1781c76c643d7f); (0x5d6ae9913e83e, 0x1df4aa25ca97d9); (0x2eb574c89f41f, 0x1df4aa25ca97d9);
  (0x2eb574c89f41f, 0x1f08b537dc0a97); (0xe98b47eb1c49b, 0x1932069ec82259); (0xe98b47eb1c49b, 0x13e55d8ebcf37a); (0x188b6346103e58, 0x9f2aec75e79bd);
  (0x173e1c94a07656, 0x9f2aec75e79bd); (0x1f846bd90d2ea5, 0x9f2aec75e79bd); (0x1eae3c17944dee, 0x9f2aec75e79bd); (0xf571e0bca26f7, 0x1949ccd328a0b4);
  (0x1a1ffc94a1816b, 0x1949ccd328a0b4); (0x1a1ffc94a1816b, 0xca4e66994505a); (0x1a1ffc94a1816b, 0x6527334ca282d); (0x728a2f64308e4, 0x1f9c4007f2c8e1);
  (0x394517b218472, 0x1f9c4007f2c8e1); (0x1ca28bd90c239, 0x1f9c4007f2c8e1); (0x8f2cbb3d3cb1d, 0x18739d11afbffd); (0x10b33462c1c58d, 0x18739d11afbffd);
  (0x10b33462c1c58d, 0x149368ba38c2c5); (0x10b33462c1c58d, 0x12a34e8e7d4429); (0x10b33462c1c58d, 0x1a63b73d6b3e99); (0x10b33462c1c58d, 0x158b75d0168213);
  (0x10b33462c1c58d, 0x131f55196c23d0); (0xe4713ac17674a, 0x1a63b73d6b3e99); (0x72389d60bb3a5, 0x1a63b73d6b3e99); (0x72389d60bb3a5, 0x1f0ab435d2e069);
  (0x12ee10a47f091a, 0x10c3a089bb791f); (0x1a3aa8dbfafdac, 0x10c3a089bb791f); (0xd1d546dfd7ed6, 0x1de0f4f7b8f7f5); (0x68eaa36febf6b, 0x1de0f4f7b8f7f5);
  (0x1d2306f73bc2ce, 0x3a64c1bbdfa49); (0xe91837b9de167, 0x1237cf975bdbb0); (0x17ad6b474bcf3f, 0x91be7cbadedd8); (0x5759bafeff38f, 0x1d2ab3ea95ca8b);
  (0x1c3b5f2d22c62b, 0x16c5c37d32d29c); (0x1c3b5f2d22c62b, 0xb62e1be99694e); (0x164e191e79506c, 0x115027cd42df0d); (0xb270c8f3ca836, 0x1c77345c7f8743);
  (0x59386479e541b, 0x1c77345c7f8743); (0x11055d520eedaf, 0x1c77345c7f8743); (0x1be19f6617a487, 0xb71d70a709994); (0x1be19f6617a487, 0x5b8eb85384cca);
  (0x1ebe1528b3caec, 0x2dc75c29c2665); (0x190529a37b7e22, 0xe4e4ccd0cbff9); (0x1ad0e19eca7f0a, 0xe4e4ccd0cbff9); (0xd6870cf653f85, 0x1bb6bd9c71ff7e);
  (0xc8294d1bdbf11, 0x1d827597c10066); (0x1b43cf9d9e3f44, 0xec13acbe08033); (0xda1e7cecf1fa2, 0x1c63229aaf9fd5); (0xc8294d1bdbf11, 0x1ea1c894d260f7);
  (0xc8294d1bdbf11, 0x15922eb3481004); (0x174bac2b61c713, 0xac91759a40802); (0x1cb037d833cb14, 0x5648bacd20401); (0xc8294d1bdbf11, 0x1af6ba601a1405);
  (0x13bca798ebe98b, 0x1af6ba601a1405); (0x13bca798ebe98b, 0x1759b0fc82fec8); (0x1e07939864fc30, 0x39d096397153d); (0x1d77ef5a8ed30c, 0x39d096397153d);
  (0x15f60a74759400, 0x199313d80ca93d); (0x12590110de7ec3, 0x12112ef1f36a31); (0x12590110de7ec3, 0x1235180168f47a); (0x1b738d1192f900, 0x91a8c00b47a3d);
  (0xdb9c688c97c80, 0x16d452897df6bd); (0x171c24a8690b4f, 0x91a8c00b47a3d); (0x1935e455433d03, 0x91a8c00b47a3d); (0x1128382afbdba0, 0x1a42c42bb055dd);
  (0x1fdd5e1ffc201f, 0x10cdfd66d18da); (0x1fdd5e1ffc201f, 0x866feb368c6d); (0x15724635bad288, 0x15f8b620f15ef5); (0x13588688e0a0d4, 0x15f8b620f15ef5);
  (0x1fa4f96561af5f, 0x15f8b620f15ef5); (0x1aced7c329872a, 0x15f8b620f15ef5); (0xd676be194c395, 0x15f8b620f15ef5); (0x4d621a2382835, 0x1c540e56269041);
  (0x1f177ce2d7d4da, 0x1a415b409faca5); (0xf8bbe716bea6d, 0x1a415b409faca5); (0x193801b5dc3ad7, 0x1a415b409faca5); (0x19bcae7b3df3be, 0x1a415b409faca5);
  (0xcde573d9ef9df, 0x1a415b409faca5); (0x193801b5dc3ad7, 0xde7b0c8626bad); (0x193801b5dc3ad7, 0x138fd93f1f5342); (0x193801b5dc3ad7, 0x9c7ec9f8fa9a1);
  (0x1b47e3ca459bdd, 0x9c7ec9f8fa9a1); (0x1cd048182fc166, 0x9c7ec9f8fa9a1); (0x183010aba78a54, 0x9c7ec9f8fa9a1); (0x1fa7e194f3186c, 0x9c7ec9f8fa9a1);
  (0xc180855d3c52a, 0x18b78e7226c5d1); (0x60c042ae9e295, 0x1ec3929d10a866); (0x1b79d1a45c195d, 0x156dcd797236c8); (0x60c042ae9e295, 0x1c88cd315a9057);
  (0x60c042ae9e295, 0x1d627103f5fea0); (0x60c042ae9e295, 0x1ac940d7cec47a); (0x1370a496d144d2, 0xd64a06be7623d); (0x60c042ae9e295, 0x1eaf091a099bb3);
  (0x60c042ae9e295, 0x1e758ef84d844e); (0x1546cba710a4bc, 0xf3ac77c26c227); (0x60c042ae9e295, 0x1bc5c41572b61b); (0x60c042ae9e295, 0x1d00ec76021182);
  (0x1a987e90d4cdeb, 0x148c7a65eaeb56); (0x1e3c14d6916ce9, 0x148c7a65eaeb56); (0x1e3c14d6916ce9, 0xa463d32f575ab); (0x1e876637b8e6f5, 0xa463d32f575ab);
  (0x1ead0ee84ca3fb, 0xa463d32f575ab); (0x1ead0ee84ca3fb, 0x14b223167ea85c); (0x1ead0ee84ca3fb, 0xa59118b3f542e); (0x1ead0ee84ca3fb, 0x52c88c59faa17);
  (0x9faebd1cdfb9f, 0x19deabdc1e5273); (0x1be7b7a8c422a8, 0x11eccbd6f62709); (0x1fe0a7ab58385d, 0x11eccbd6f62709); (0xffce7a107e189, 0x11eccbd6f62709);
  (0x10f4d9bbff0449, 0x11eccbd6f62709); (0x1170d2c97a95a9, 0x11eccbd6f62709); (0x11aecf50385e59, 0x11eccbd6f62709); (0x10f4d9bbff0449, 0x122ac85db3efb9);
  (0x118fd10cd97a01, 0x122ac85db3efb9); (0x11dd4cb546b4dd, 0x122ac85db3efb9); (0x10a75e1391c96d, 0x122ac85db3efb9); (0x11691338a2dc93, 0x122ac85db3efb9);
  (0x11c9edcb2b6626, 0x122ac85db3efb9); (0x10a75e1391c96d, 0x128ba2f03c794c); (0x19ed2f8bb00613, 0x945d1781e3ca6); (0x1e901847bf2466, 0x4a2e8bc0f1e53);
  (0x188ddd9bfdced9, 0x1d30c6580ced2c); (0x188ddd9bfdced9, 0x172e8bac4b979f); (0x188ddd9bfdced9, 0x17de34a424b33c); (0x188ddd9bfdced9, 0xbef1a5212599e);
  (0x19ed2f8bb00613, 0xb3f715a393e01); (0x12965072f4a20a, 0x1dd5c1cd2de00b); (0x94b28397a5105, 0x1dd5c1cd2de00b); (0x19ed2f8bb00613, 0x148a9993b38f06);
  (0x19ed2f8bb00613, 0xa454cc9d9c783); (0x1c5e8af49eae4e, 0xa454cc9d9c783); (0xe2f457a4f5727, 0x18749244291eaa); (0xe2f457a4f5727, 0x16fbf4fca23741);
  (0xe2f457a4f5727, 0x12959d3b78c734); (0xe2f457a4f5727, 0x177a14180bbac1); (0x1cdcaa100831ce, 0x46657c129700d); (0xe6e55080418e7, 0x12d4acc92d88f4);
  (0x17d8ab6c9add61, 0x96a566496c47a); (0x1d7a50f24c162e, 0x46657c129700d); (0x1323803a4f7b24, 0x1789d7fb78eb31); (0x991c01d27bd92, 0x1789d7fb78eb31);
  (0x4c8e00e93dec9, 0x1c52b80a0cc9fa); (0x17ec6048e359ed, 0x92f37cfbd4ed6)
].
