(** The RFC 9380 hash of the 32 bytes of a commitment: field elements, points on
    E', images on the twist, sum, cleared sum, and the slopes of the Miller loop
    at it.  Generated; [chainOk] and [fmiller] check the tables. *)
From Coq Require Import ZArith List Bool Lia Uint63.
From Verif Require Import Params ZMod RingPow FastMod FastParams Emulated Tower FieldFacts TowerFacts FastTower Pairing CurveSpec G2 G2Spec HashSpec EcGroup G2Jac G2Mul G2Cof G2Psi G2Clear G2Order G2Chain G2ClearFacts HashWitPts MillerWit.
Import ListNotations.
Open Scope Z_scope.

(** the commitment that the rotation of FlowWit.v signs *)
Definition fCom : Z := 0x2268e9079d0f3c2645a8e68463a121c21e01cef200f4351deec4c1bc65da525b.
Definition fu0 : Z2 := zz 0x1672e5b8bf286da0b23794e6220344d3e3bcb5331dd16562bc6ea6912122eba040971c49895b9062cebcfde0c3603968 0x48f16fad37f8dd200207b2217960e66bf02df0a4828f74d82951483a198c4a70e4494497e38dfb19e76b67e37a5e7ef.
Definition fa0 : Z2 := zz 0x13d710cc126ed030e57a7454584d64861b7229a82a692582ba4607329594078c36b0cfc656f4e4555b13106d416f507c 0x12787d122a60286d5cb3ebf513efdff83c669e38a49edc7c3ad3bbf49c21aa73a7caf8c1188eb1b16841745490204967.
Definition fx0 : Z2 := zz 0x13d710cc126ed030e57a7454584d64861b7229a82a692582ba4607329594078c36b0cfc656f4e4555b13106d416f507c 0x12787d122a60286d5cb3ebf513efdff83c669e38a49edc7c3ad3bbf49c21aa73a7caf8c1188eb1b16841745490204967.
Definition fy0 : Z2 := zz 0x156b2e6c5f18494c0350b455ccf7c1d645573c5f3568b87bd57beddb6f7c3ff7178e95b88b39b54bcacfe06fc2ab526 0xabecc9eeffdb07f995b06f63c234e1c950ab0b5253a9868239765cfff1ae32b9f0cd36f5cf7bd45f024d2667fbe5e8a.
Definition fu1 : Z2 := zz 0x16b51b32da44315ab8b1868ae5229b8d404e7d1f79edef8101d897181964e65fe9cf91952330f6e4ef2bfc2caef3d328 0x147e9fda991cdba7050c8c6c2501edd8496133c49523207b5fc96c229d8f1104251d8cb7a301b39d251c1f5295f1a1f5.
Definition fa1 : Z2 := zz 0x9ff9c730bf02a7f2ff7379ff74f85450576f1f09a4a0a514aa08a3be45c6b449b3974abb927e218162f6babe65e2c73 0x1587ced70b1a890d625545008360884b136e7ae7e2fd42533f0f40d9392baade84dc6f388dc25c70a851b615906d7ec.
Definition fx1 : Z2 := zz 0x9ff9c730bf02a7f2ff7379ff74f85450576f1f09a4a0a514aa08a3be45c6b449b3974abb927e218162f6babe65e2c73 0x1587ced70b1a890d625545008360884b136e7ae7e2fd42533f0f40d9392baade84dc6f388dc25c70a851b615906d7ec.
Definition fy1 : Z2 := zz 0x17a3db8979b39f9277faaf782f41332603cdea5ac5f24ef35ab851226360a507fa9654f93741515a7ac6c1046b624b2c 0x1950df08466a9ac8befbd56696b239621beba9e6f06027588fda2016d1665b85d8cf96705470a04b237892d84f718ade.
Definition fq0x : Z2 := zz 0xaea11affcbd7f7db3ad8e7d5ce0fa1bef17d62d31e8ecdd3eec0b49805e9a75bf3c2e9fd87b9215224124bf1afb2c9e 0xca21c01d7ec71f9ccca2ba8f9932c3e7106c348bcf896fbf512d721482d61c07b47278e6b80e86d66b7b99f2810298e.
Definition fq0y : Z2 := zz 0xc25b9395e6bc23ee83107122d92c37f4d8f05a16de6bd69a075bbd9c09e3c2b9b04a7cc4b37172b7ad422f2b6bce631 0xb348e69f64c34ba9344afb07c5a33a3be116c43aaad645092eb770df977cd1adcf69d3a71dd16821fa3ab8b11382725.
Definition fq1x : Z2 := zz 0x2974f88d15ff4136622abcb670666a4fc6fe0b8dbaa394573f87db8154d36551548586b1bc6088ccf7a20f578d365a4 0x205f87a4d5420a18bc86e9af8f0dd1bbb3b10031e5f8333720ad062c2da32d19e47b9673393f806f389c115ec34e30.
Definition fq1y : Z2 := zz 0x2ef9af38d0d00424cbd65329366b44d21b1ca496c9e439a08620772339e4eb91e4fca0b1c8484d93fbdd922a1630c50 0x7be1d0870fd0f7d898e418be209830d467d71780fe7debf6e2b6608db072ce27bca57b105570c0f4aa33b1d92cf44df.
Definition fSl : Z2 := zz 0x4118e9e755d28402740d310f07c48d609350fab9d0e570633b3d942b4af9bba1ed33a9c24a3f71c5eb2d3a317b5b418 0x1419c2176e57de1ea4c3150d30126b11078e36e873c0a8aecb1908dac41739e7d27bdedb90fc76cf60a6b2a4586ce207.
Definition fSx : Z2 := zz 0x192c689a4404f6e4142021820130143563f625756cf6f96fafd490164f11cc961979e707479d71dedffa80ab030ce68e 0x192082d6b1bbdd6af081a081071f5179d4c337030fea12e61c787f136d41a4d6a9e74683cf0a56e3a8cd38e67c35fe5b.
Definition fSy : Z2 := zz 0x38d4fbae8be5f05cb5952709ff91fd1359ff5a2d5d40afdf9902007a343c10c50ebb8e5d96a09c3d79ae0dc0a83c41b 0xdf67b7a9e21d8d545b0299e4ad741f3eb8038306e6fc7dc25864327ec4edd3e7421bcf7da8e7f333330b13751fbebaf.
Definition fAx : Z2 := zz 0x76e4518eb810d55db659f4e7f3dcd06f1b4712110fa002b9fc1ced423aa5cc2247b6b21d7f4e6be7e1d4fb0ef1da42e 0xbf7785e75a89484152faec3baaf201af44bb9ec5a8a467b8201e5da9f5de8f8864e08bc571d893729907f882fb67b09.
Definition fAy : Z2 := zz 0x116cbc252839d747bca2b261ee570dbf16caf546583711b9ae57c3ab711e9518f96f9b9f60d9ec34894ddfabd71ec588 0xdf2e7c75a1dd9d6851796d5ccee2da498b60f3b398bab807d68fd98210b5ebfb53066cb47cd52d9ba867477a0b1089c.
Definition fDx : Z2 := zz 0x19ad681b3cca82b9a60588a90d90d3ed29d92e51c0a111a81e55ec3b818f09f9bc0f1f5ff3923a3e622becc3aca05a24 0x15c0375341782f9635debbc9b40f738747b8b0a2c869c5b29ff97fb0d978bb9459219ac3ac5e0d4e6fe1e533112b7602.
Definition fDy : Z2 := zz 0x5c543f28ad90d9191fd26829908d96a2865b45c1d63c607f7a752a73e42bc52a4785e65bd07b4069af77a058352690 0x454aa727ce42baa87044aa38aa4a6056125dbbde91d7646cfc33726955e29e6615b01dcc31ba397b54283527018d913.
Definition fCl : Z2 := zz 0xb38d083beeb761242c62a4abb0bc85892c6d2eb4556026e759f8b91678854d840a7fc30a4671963f42010c850dcfe61 0x159c9fa727b52c20fd6622abcdc2117e3e2abeb5b9d43cfbab5bbe8e3350704188219ae4e9690f6d87e6c770cc5e7885.
Definition fC0x : Z2 := zz 0xded0be220241816235443d696aee083b41a428f61d1d802a4831f1da8756f79e4311a60fa0c6c40f8c5db5124337337 0x4b2766c4f486faff7e48f8b742777ad1f8f0c62e572f520e69d8b571890d257c9335298cfcf8e116fb4b61a7f871a62.
Definition fC0y : Z2 := zz 0x57d121de1b98a446f33fa92808d0312487563c6a9b1888e9d7066205d65789b11c89e1a130fbded0e090bee45e36a3 0x5d3531ffc4f6c505bdbfe4e4795c64cead0eecd8d84191fbcae1f8fb90ab9dd9f7f269ee813f55d6500fc8a592a71a9.
Definition fBx : Z2 := zz 0x1064ca3f0cad894348eab2cc0266d94575e208581b84112f6f13f49802307e86898b23ace50b4247fb08bac44701b0a3 0x19fd4a44e13cfbfb38abc69cc6c27bfdff233b19e0adbff6a0808fe97c64b1d80dd373527700c0c53c339fff231a96.
Definition fBy : Z2 := zz 0xb9e4266727b0a9654f823161e3b8d50bd5a2ac93375eb77fbc5913408d2b828cb9913e1e5fbf8f01baab8d73b7a58d1 0x14a750443afb4bad503b64bb46fc373b5eb3800b19f05634daeb2e5c8c5fc928d493a299d19ebd1890f332c69b58441c.
Definition fCx : Z2 := zz 0x81beea566271e4147d874c721ec9629cb5852db1734fafbf053b8b1a3d95cceb439779de410d01d26d7d0f62279ecb4 0x3f4ce371b9e7f236d1b97a6d10837c48eeaf88e56c07c4f637a2bdeac01aa26563d185a2eb8e60f9b559616e8833113.
Definition fCy : Z2 := zz 0x19a940c85b644df60428680d1b42dca63feff54888e9fa367d59cc3ef0da9e9a6d8f761d10230420e91e6f411ba17408 0x142dbeca3d307a49ef3fa967fbb5e68a79a65cb76600f99faa82b3113da63c467f2cd95fc9400aa254fe0375a6d53902.
Definition fUl : Z2 := zz 0x40773597a87dd0c7791b3a2a2bdbe1cf328e56c90ce736ef3de35ff4f003fe532225f5d8549fdea8ee40451813a21c3 0x40e37d2774d65a396d2b307841d016e0dc5334dcc3a1809f75eb1b8d55b9b10cabfcddefc781b30b8135f11d9b49175.
Definition fUx : Z2 := zz 0x15ae81c5222c55411528a99890e199415fc55c80dc0d566c2a459fd105b2354171ae8ff7f37be70aa8389fcac687508a 0x1956488d0359671a0419b311eef0a92dacccfa7f744c93fc078f4ffcd18d07ea0fe49a834f823f2dc1146bdee2e66b5d.
Definition fUy : Z2 := zz 0x168d3575213ff3d0c5feb549a6972606c0e9f3feb1f6bb3afb140bf8be273357a3fa5d30e7dc372fd315a6dc34c6d9ce 0xc3ea323cf74aa0587e39937152c91d1c8e89d664fd7c3fb36df729f032ded3a03a1b81aaa282fb125c3ac3442df55d8.
Definition fRl : Z2 := zz 0xbbaab5964b6aa87e4ad6ac79b6dd36fd085d7b9c34e35567063dde5989c30efa17b4aeb0c7aa924459154d3dc5022c4 0x4bfa3e0d4d68f4fab2b3d68b14a8a72c7b7e7364d779b12f9d1ed1755d6d1da3e1862cc4245001197e8875939857e2a.
Definition fRx : Z2 := zz 0x1702ae2db67e23050006c202f2d91ab36475da73a3d11219467ea8f4d58ffd0f817b7c435c26d81fa3d22930e83cfa12 0xc6355dc9171bcbd08fb7a660a537cac987026d800655da0e3df5f2055eda7ed7fc8c9b85cc69add71c679b88ff27d3d.
Definition fRy : Z2 := zz 0x13fb27742d7929bfecb5459029540c8a5651811c822c96d2ade818da29b7d6d49b319b3e5dd4f6680e9a7b1a6b7a73b9 0xb6d324bf36206bf4d2569df773e918b13becbe2d841b9b6461ce1c317fd7e06ef677fa4977b3b930c1f9f4bd94a4840.
Definition fTabA : list cstep := [
  cs false 0xb38d083beeb761242c62a4abb0bc85892c6d2eb4556026e759f8b91678854d840a7fc30a4671963f42010c850dcfe61 0x159c9fa727b52c20fd6622abcdc2117e3e2abeb5b9d43cfbab5bbe8e3350704188219ae4e9690f6d87e6c770cc5e7885 0xded0be220241816235443d696aee083b41a428f61d1d802a4831f1da8756f79e4311a60fa0c6c40f8c5db5124337337 0x4b2766c4f486faff7e48f8b742777ad1f8f0c62e572f520e69d8b571890d257c9335298cfcf8e116fb4b61a7f871a62 0x57d121de1b98a446f33fa92808d0312487563c6a9b1888e9d7066205d65789b11c89e1a130fbded0e090bee45e36a3 0x5d3531ffc4f6c505bdbfe4e4795c64cead0eecd8d84191fbcae1f8fb90ab9dd9f7f269ee813f55d6500fc8a592a71a9;
  cs false 0x18f4f8fcfd7c1a7e971af73eb5cb2a4b633a26b319df45a03d838606568fcfc01759b0a27a5e699ea25fdfca5025b788 0x51de9cad87cee22ec2f141258a06e4dc3d28eee49f841cee6a910f6b5931aa5eb9bd5c278fc8b89c0497e5139b170e2 0x1561507ac2633a3fb6a52eb34a42c8734d15737b1f25f64fe3bc43727cf51333b80b132fdebf71d645587f555e830196 0xd57aba8b445e203ec40687e0d8424b534373e4e6bc058cb108dfe1752f378901c3c633b9d7fb8f53b3ed992fc6032c0 0xb15e5ea74009a277db526e52dc7bed69173e9eeb07578c8b78cb073efea1bcadcac3957c50f7833d51c1ee82cf562e4 0x16ab7d4e89db1ad622d5a6abf9a5d057e094ab380b3dbeec3e87915549c304d5e0b20843c8f6348e717942c51c4a55e7;
  cs true 0x162222336ad38be7382b1313780d36934519e9b27b5a5863c35d8fd2b932caa03d3324f0591e6a03a1185d27beeb9134 0xc280f1bd4b1466adbf31c99fad2684da75e88d71b09d0c50ba5a6da0c71d03fb849d9fa79715c44277e2509b3b641f9 0x843ed4a7a015b43419af8a95c152a2d1239a40170cc42883e6fefca57b524cbe17588e87b4f8e67407f2bfbfd4e9238 0x14dcd8ec91d85f9af2d138337386cc4ff9a4b50f406aa423a7e59b1d986cd49e0840f9e82497e73ebec84a45e16319b2 0x8998da33543a74c57d6a3f6c35ab07e04a7a76302fb9bb342e6e961c18c6c7ae70c430e5d59d94e534cd9697e98de0c 0x175138c145a516ebd2cb4c3fde8c0231ff3d9983b34d67e68dfc4767a800808eb32b6e4232a52c84af77d25483e16b17;
  cs false 0x87f72629baff55a03aebef9afc16c78470bd4fb1961c71f60c0eda35326711f880c9f7e4af9ae7ebd001acbe2f89fb6 0xc638ffb1aff56cabcefb7313f664945c5cac6f78b079fbebdb3534c564fa555276ebb1f426b3831e392f05f9d895e06 0xcface8db7a78f0ab5c1dd2f448c0d6881c86d1cb1143bd369fa9e489a3a94da4b73eb73aa357d018428c4500666aba6 0x1430464deb1c04d71f37ecaf7f141221c781109423d56e2d90d590e88797c047bc4588cb9c210649646d3c2fd9f56238 0x17ee99fdbe70fdfabe84fe72b345453db6c9b2dc2c2cbc2dffdae5563a8d30161d4a7970f6e8a5b5a5dea4585e4c1ba3 0x13dbe75145317db1978947bbf9a6bc2e45bd13700576bce2869f05cd7a749a217a8c9443af56acc87c9fb0bb24193831;
  cs false 0xfe1a5532f6d672ed6f6ce6c459e88dc7b0182f985d593d66a83c38874575c58708855aed059af645d81b5801f990c98 0x945fa5b6fc50246ffa6e3715e6aecf7d66c3e7e098ff0d7a1695ef5034f822f2c326ea7063e6dab890e08459a3dcc81 0x149a346832f7aea078dccabe336fd184b7a2ed9e8d4f22ddfe751e46fcdb216de24711b05862394470bf24d873f21cdf 0x4fe124a03b412887b05e5693c40ea49369564b5bfd9f4a0d484c60430baaac5069c63a1207b65a51034aae1e30e1c 0x501fce13a5e661a7aaccec699877d8bf7061e9ba60b018377aa5f57af5364c2e75b5177c4ed934ac81c21f4af09c014 0xad3c5b44fdef7c97abb576071e3ee17e37a1a37e35799cec8b6050c80c8b3be92806e77d71c369d035967f75f73d964;
  cs true 0x15d5d783449d8c5c554b31306b8d9ffd2b12fe37e312c869910fe9d63bc6e303a219edf92cf3afe650e9684bbfc812f7 0xe9641ca892615957463a79bfbb9f80b7b9a96215adc35150774b75da7dabe9cf5df559f676e4fed4c82eb4b9708b0f 0x5f054cd1df8b1e73597a49c8fb86ecc8dd8eded004342324c4b01c723497285509958ced23684b44bdc1914f69fd2de 0x1511051f5859203de5c4bb3d6b742847f3ea64c9be4d9d3ffccbe87ec41c6766f903babd2f501c2021f755777765a21c 0x3162d32ef4063d4fcee2b70fe286c38d68ce13fbfe8f69a6f5e51048b98a52845fc22e2098133a377e32b761e1e1fd2 0x179beeeb0115baabd14bc0ca1a621f11d509df19b41611bdc90f3991878da9a7d8d7e0d452e49af631057a9b452c0bf1;
  cs false 0x1094d132af3436a4e7c81c9a69ce33c1b207bacbbf08b5acf5715840d2e9ddde626dc63a74981ce62400f00a1a0c3279 0x11e0087321e0295ca5fd8fe89b0e60452b0644b6e9d6dc98802eaec8e787f24903294e738b710e559674fcbe889143cc 0x11804a1af47c9cd4abd2cf1591aa3452ad417307b95b129b4caed4a0fb1725faf403780e85fe43a77ba38771dc0c512b 0x109268887923f9e0eac264720aa0f31566c1bda2e158bd8b98eead6f6e7d7bf50d076d65bcc9b23e2e314d7448ca4901 0x137fd0acc000286a1fd9e860b61359b7ddbf8e11f377fc2496301cc1fafc3973bb38d615f840114627a7847a4b3e0bda 0x4ed54442e644c9cd0368dba68cb9df40d18ab71ae687f538823c84e1fbf6a2d3371186366e94bec98ab5e41c5f41908;
  cs true 0x13ed1961ee0b864feeedeb8bc68d7d76de88b2d405dcfe5c2aa9c78cef0562911f09a5b622716bc59bb8566eec418acf 0xc892d91cd24bf9f49823041c472bcf64b77eb1ae33b4bfa49e0c78ffac73dd05bf591fe83009c117c2af4015abcb1c3 0x17753b982a9e8cad1908326ee89b3a054a59ed582cae2aff4969bf33adb5c4a0abb21e946b4ac9c8a75416f749c4a538 0x1128d0f14390fe396b1cd41624ee2ac28a6b35f7943698540619dd609829c2cfd6433382dcf48cbdbe13ec8c17a169b2 0x8feebf7971b5a62dcbd8b1514b52a087801c63d4e8140943418b6bbd58e2920241f4e3a7bdc454889ca0a4edb5fee42 0x159d07ae895fb211c7ea7717f74cfe31b85464f7fca8b04cc2087cab45bff1a9ba8e2abb71a79534f9d2c49667d50cc6;
  cs false 0x96a0c5b8ec98377191ec2c3c6e44bbd1959bfabde4eeca824fc4cd25373f64d0513f67acee6b6e25827b01f80713e4 0x8a2b6720900ab931e1fd07d9187a0216d90585baa084fb3e8039f80709715b2f58fb59d5d1e4e70ab2b2e66c64186f1 0x173986a2ddf61a2911045c173b2c0b1c2cb0fa4e8be4b5e42675978db1f249285bd363bb2b94c0c4f6cbd6a6f58a5991 0x583ff6d9461c3aa60b08b095a8bb13eea9f5f122077872694a6161746dcdca48241ffb30d1064d0ec28607fb27d68d9 0x15fce91fcb9a7b70fd4d8e780701aab228af3a338adf225b07b805ecf9e29e52cba4a4bcb2a76ac888edd41e67cfeaf0 0xaec73df4903283e260a9199aeda4f38b986e2875bb99799df4b8c26d6373d26f2c400266215e2b460e26c7820e747ba;
  cs false 0x1087e8f4ff79a3469634e442791b409bf9ae5cd1e10680130030700ffd9b0126554c2b04ae4979b7de81b70420e02bf 0x419973637e24a0448f1b5a744777cf67a91999b59baf54ff166faa89d4503c7ff20b90a2c5c4bdf791041df5902f927 0x1251a3e98e699dbdd5593d261b0d98227f790aaf91c5895b04ac49f280513c31bd2c398b4f479dd1b0964e0012150eb5 0x10591732733744b52522f6a02852811b512d8c9889557a65e97ff27e162dbdfde52be55d3380f416e082c67e85144d2 0x974277c180174865f7da6ef13b1cc9824574f30d3affd2cbdadce36f01d6564b384d79e79e6f794b3fca610548fd145 0x523cca0744b63ff3fad7136f3c8f3f05d3cd44489835da965018075bfad5a7c0e3eef8495aa74f7009dfe7832092c52;
  cs false 0x1723a1d50384621f9181c6d6cb565d407bb58e9e98387b9fe0405fa9eb7a93bc940bdada76d2683ef3ea8b9edb78f49c 0x157c635b5c53a274363afcc268dd094dcf3162fb8215c34c4d0a4e6b7b2f2a2328dc2b8fe357f7110c276aa7b213fec2 0xa3be22c03056826a61c5279238ab9740a35827680f80fa85320ef3de9ef25566109704c0ad61eb0fee366778ce9ffb0 0x14dba24b3bc5a10dff7e011f3142a45c4a9c0f7d2d3c1f014781bb4456dc6bbec20b7a0c1a8ffaaae92069f6dbe28f05 0x109187fec994f22d0c854d8acb960ab22fee3f29b543e6350658eec757e6c4bf511e08692a36525906c26c3896f5e2e7 0xe2f306f9c6e68345578098e24a4a4386d6d8f7b8a9562d8fdd2939bf6fe164e11aa8ee8ec1df48088c6a5e7c4dbaf63;
  cs false 0x128d6967039bcc901c591a1b97a0ce10481fc604258299c00e89201a32a38c4b2ef9a1d73cbe6e69677ff3e3551d4749 0x37f29994739ea774b16f24ba607cd8850d1c37dd6f2f1c49c6f4c659bb8019d71fd818684c95d7843e578eac01e371f 0x19c7c64b19cf71561b2671731ce7bc271da7ebde8976239476fe55e899f747b0ad661e4fcc3aaee867545fe9c8b01ca1 0x3e728a26c00616fdeeaeb37fce2c12dc4e28d1f1be6a345ff12f79724a47eb115e5469564cc510df7809f36ad88dbc3 0x1345483e1d9fee1c7aad2c40f87301cc512b2a3e7674394d0c69302298c67172153226969c0288800569567e4d6ea3a 0x6695461afb622f57c0b07684c8d7ed0c2106c1e7f05239a0e56835b4b1f01395d8a3a296e81b9fc35730f04594e9bd6;
  cs true 0x18212f0623e6c2d11baf291ace71cdc3f37dba200c9366500f3643ee7d0dbb045bd00f485f160a97f0d00ff250bca91d 0xdf45b6a29eec573154df7aa4cc703369dcb70938fe3b3e9de6c71a34aaf978408cd4d3074d07f04e8a16508189a25a7 0x9a96da6bad2ba9976f0324a10ae894eec7d2dfbe8d336e007418fa46a80a195817fb42a613d14393a7dc62d43da7ffd 0x179df1f78ab2c2c9b12002ea66d1371f573d2c812e8fa0d5e9cea1808a0d1ce74b52d729d905753591f9d84c5cd1f562 0xad8284f6061222243fcba5050d5af101266aa906c14819390656256d11a012b312c04333a624554c4d9c65b63e6fc18 0xd7384b096ef6abb16020b6dc5a8e5105e21e8a610ea21fbb85e06809a8045013b2ce3fc32a5427691aedb084f93301e;
  cs false 0x468a0d374c3ca505d6fb11c1f60dba99cf64128a93eda9272e452f1c2efe65360a9d36b64f2057b5cd881f67b7a91d9 0xac308695c44207efc2498db5d077189be80401bb9f52217bdfce9201ac5c0439fa6c5a02e075c88f18c47e821577ec2 0xad0cee9e1cbbcc64f3864423ba7f71e43cd8ed6894a940f191b5267bb10f42e11f59c7b426e1d5b139ec0739bb973d2 0x76a3cf4f20f370401ada936c3b674ee138af382a2f8575503ec2cef4b1f695ff10cacef5566a71194edd190636a24ee 0xc7044437fed6b74fdac1e23b8a22cf1dd0a6ff5f5b418fa4b3a7d206864ab38be4e6c4aec2ec6b8d32df5f34cb51673 0xc3b80ec236a9151d8301de3f63ea621c46eb6d9378d460bcc60662b0a055a7e4970feda27b2c54af569a31a066b6e85;
  cs false 0x1598429861c92f67df3f239faeaa942bbeb0d0b9e9c4fa9feace7c1165cdb272f9f230bb53dd62a2815b5b253103e64c 0x6b1a8082228d0de04bf586f8b07bc8d362e3c055978e44b7a5f477c6749f6c78e56062f31e0f2a6524e7fc0135aaf19 0x8c12355f5440759da0457d58b3443630f5476f16bff57aa88e1ce5ffd857e8f0ff61a9b13421632c98171a3b6afcd84 0x13701c1b9a3c26c53792d2e699b500f69421b86ab1f93bf105cc90d56606f57407b448024995c0111fae8257e24169ce 0x171351609428287429322a22775bb60f036b7fb44584ca9ff86b810f1d8cf34e4b1b9e6a522aaf2aad182b4ff5c45163 0x7d637d442f311503a958850ca5bee20b2bd46d0e55df1f017a39ac4399bab92e60cbcd4c22160662a4e56fab59aeb43;
  cs false 0x12404283f0a1120eeb5a573735e55de6458af7bec76b2ca6ddec41c0b589068e4bbf891c1ad37e4350cf7102c61b858 0x12e7dc67fc04e48ee7ce44a29b9cca4875c6f6a97d075750bc6173de6bf0f6d71428e8db6a4e3db05b7d207e442f2d95 0x446109e746503ee398e23ca107b811ad766276eaf335bd9df86e4406657a6cb01fd4d0e620f55ceb7962f3d4330a133 0x262719f517bc95e82b003910f9d7690dc8aaaea6d178421257118388b30ba87d6807713ef39240f933200c6c90fede0 0x134a1efcdf06b1192aa01a52b11a266336f3eff9c1dfa7cc3e8876d434845623cd3fe7041314ee36d18904df58aea044 0xe891a6c3b68b54281d664298f07ee0f869e7c672d2894b6cdae64d3f32450c06a7d273a1744f00671f5095f12afa444;
  cs false 0x52c1074c24c0423bfa69115e26183407c4a41ba66cf480a020d7c4cc9f48d74dbf4c183f6f8a1ade170d01959cbce5d 0xfc78667c6021c0f4dc1aafc2a082544e954c3847982616a0667e9e242eab7887d3dd4a016dbe92c22ba54dafc72e52c 0x1675ff02eb297347ca3876aafed5e294ea4eccf8aa6e675bb510a80498bab286a4bac241354f1e12ec71c16497ab51c1 0x12d84d23b3a773b30fadfe85da4daa7ddc6252cfce8ce01265cf08cb61563986c5d7b8300b24ad45440176e289320a98 0x11b9cae5b052e2a78f4d5b2cd054e94bd97e564b8bb75d32143a0b03a6bf330fcdfd9b1b5f7b493229d1ca114709735 0x378e93252106efd6ea1245eaa4951302a8f2b7b725b75d71ce61120d7f04a9f89406470c2f6ca36463d9d761eb10649;
  cs true 0x85cb7d6b4bd3e7fd8a9fd574bf1417020d858c0303aae45b28aa7177bc6b31e3f2cdd8daf3971bdacbcb57eb9737451 0x17ac45cc5daab27ea9ee3ff3788134fa7b9440c9fdaeed0df8124a6645aea535bb4bfa6bcf83359577695a2c7f42a441 0x85bf7345cfaa1cbbfdf37ec1f8baaa3d2ee6294888e0afee04b754dbb45b8b2c6a8026e0a4ea77d9fa4d05b0e07ef5c 0x7cceec783036c6f9dcc082bafa4be6839b42641f1e99d2196ea364128ab5436ffd41e36fc3562f7ac7947fc95795f2d 0xf427edef06bd5691c551442685e51f8b0b077505badb53b08d43b67dc18ebaaf12d69aa9c1198d8171265398af6b56a 0xa801d79195c6d98c1bf37fcf8f6befc06457b1d677503e81fd5ec12e8191f78426d973b426a3f85b129f002814b35f9;
  cs false 0x13118faea44c4b303c88c5a299c393cd309540f550ec764b847e268341544fff8cde1fdb9534d369d90b6ba4edb558e6 0x1373c92e8e496528f8548bd4fa3a9b6377aa47f8eb56b5baca2c43afd67f33750591888e195d61a94d5eb0b4cd9f16cf 0x18aa24065a8baaab0f356d0185b6b9834fde1f035ce584153b07aad459c47cf27ff117cdf2d9f2235e734b398bf548c8 0x1631f26726121454d42c2985a7ed094c43198fd0283f89d6b8b9d7cec6e832df79b7a3d70ff6c6cfa302eb9dbfdfdba 0x123e181bd3a098c98c460e58cba25c14a733c81bc6cf56f9fb6f64434dd763632b9b0038aa5b74ea782b7a674e1443ff 0x47ccd56419a4d57aae02b29ce0cb70ad5a93db1947e8df7e34e107750624e3797275c6c85add8054297957723ebdb4;
  cs false 0xb03d5a730d390a253bc3991be3ad339a17110026f9528674f27633aaa18f47fdd01fbbd9c0b93ad5253b58582d240b9 0x7f1f601a0022d734d7d73819d71198499c0ee0d95b758fd1662dc90b1adb3d7daaafdc38385143f8f07fb91729fb670 0x27642b5ced2ff47be1b29cd0f3118a8f13888a7d61b36e4a155ddb2e546f4b681921d2054b8a1fbc168e6e4a416798a 0xc9aae2800178c8c9a2c317cb90f262ac720cafcfff2089b8d64eb9294fa1ef7ae98053a8291cb79d30eba22a731fe31 0x234ba9eeb35441c10dab5eb810b635e93f35dcad1cf796a0ba5716d33643855271a36e5fd80b3355bbb190d0c121899 0x173cd8def9eef040c726f0e503ebf716e21c056e1d52bb33c0ff2616d130b2ea1f772b1f7dcd1255883bf9587813efe8;
  cs true 0x166ae01875b577268ad3ba62ea457ae8556d5edc239550227164f36772f91d76551019d6085f4572cb6ceff235ef7f87 0x13117caaa872395142ef7a7fc2bd3a7480a428fe0c2fd52694b7a936cf2f74bb47f4837ee0600df5701d14c9ba17a858 0x1158df9602adb706ccef41f05506a9daaa99d0a8565b2d7c66a492f9a09aac829cb07a4c546973c91a7ee6b5764d1758 0x80561930c0630b1755f3ce0287e8b53f31dca9139413b14f755e67d16f77c2370042bf216cc486c8bec3344ceb9d095 0x5c7af11276c69517f069dd0e53a680f274c1144a25cb10f227187aa9696672d320b5323dfe4d5e728abc02c53610ccf 0x8a1280e52be99ef19f5ecb6f529285207002d3d9997b16d45a8d938b18bce8a8258d9a086b5dfd8a997f138f0b255ac;
  cs false 0x19bfa79f29c7f021712e82ec0a8190856cf24957941249ca58c25a311d8f1185a5de0759d7148440b71ae1550bd36c5b 0x11b0ff3d15ef8f423daa4b75457b93ddb57e5c95a622f9c2d9d33800caa204aed4a2681ad1b2abc63ddaf75a95eb433c 0x80ac1c035c80ae42cebf4c92411f7f0e71aa85b42df0a11d04b594d62af899c1f5afe2209c504b328d4cc3a9f32e137 0x16972c65bbf55f5db493cea946d0e6c286fa75e2a04596bb40417e4b3f2714fea13d498923ff3944d3a3ce0bddd1dee0 0x194ef1b5297acb55929fa2d789ff90987c93ae8f5f3080080804c02aa3bcbabf2f65d8f445f7365ab53e94c05466e21f 0xdd48d70f4714fc1b08683066e7035031c7409183dba09d70d5b7d157738d2b39c742cdd5beffe54fcb24e9304f0f157;
  cs true 0xffc879cfa6aa535f47376fb84336e7131bdf00a052f414af165ea4b4a48d34594abbc33d62a23377b0b7eeaf410ce4c 0xd051a902d59519e05ef023de2e5051f49d86030febd27b8c1baaf7922b387b58a56eb5dc714921d615bc5c07b757d47 0xe93cf7d9b2cecc36fe3bfc2bd099579febf20b66b59c997a12cdc1d97c0c970ccc5394a6d81e48e4a14c15a83d89249 0x490e983062de2f15c12560ef8411b39559aaf618ee61de0aa586bd077c683abcb5da529f8952224cafde5eb646e6882 0x49057c33f4b5d23bbc9ab3d3597a91a25e1cb38fd2f815938137a49a4719c9df6989b54416fda21ee60c69225a6cb26 0xb86002cf81069862b5342b2362fca76520c05240865cfb031129361e56cdad32db892bc62c0d3f2b4cc9ed9012cdf56;
  cs false 0xf593694dfa52527099f6b2e925c62000f21ada26b96e43c355d94b5d14ebf6158b2897093ed6daafb80857333572dfb 0xe2859e74d846881dd40c24878f335805232586d719070e82499371cfdd35f033aa00778cb78ee4e267daf8b4f710315 0x48f2a745fc0fccf34e7802a22bc7398d1c8d3e870089c9f64564f020ce98b36ebc0a7ecfd62b6532278e0e11948228 0x16748eee4b79d2c88be4b7cb1b2b1e672dd0d9693688b6285d55653731b887d21957f5b7548522c63d8a55c93edd249d 0x8d1ab83962c976306927ec7fc53c08e937541a4aadcf80ff744288a2b0d64581354c9cf621ef247ee75eb6608dfa717 0x1213cbcc65d2e4451673bdb6c4d7cfb783e10e3edf9b8ece2569645153911c94d65fa0500ee18a0f587bed97add2c9f6;
  cs false 0x127c06e1141f1ec31bce14ada6c3e781760a8cf6493d2aa383062444c49fddd88eda9d2d2d5fefd82a75bd06d3863694 0x132384a9533638643c0a0ac3f1a48f1572c3052a77be67b4283b10dc2fcb3d0227408bd54937556d6f40a968c3c857a8 0x167fc14414e2564b83a8ca1c17de7154cf09d97cc3c2a934998afda8fab11252eeb717e3e52d9cc5b0394452e6b3c9 0xc36b41d8f625829c32e1206dd671c3072b0fb0be26f25665a21338b74d497cd76c56e9e63b04efbfae88cc4fef5aa5 0x8c2e1e5e7cfc5cc82641ef11f65335b4ff424af46c2ab57840267b8032dca7c4681f9e30fe51ebc195abf5b78da34e0 0x9f779c473f1eeab07724b7e67d36e05e85d293c452b5ca018d5e1e449c36b0f9dfef7e5d82d70f7842357d989abed4;
  cs true 0xda9ed52f6bd9ac725e7b534b983a57b3b5502388d3be0d8c3c9e7c9ccac254826946da57f0ce2ea1c1cf245ec3619c0 0xca28fc28c5d0507b14a5eb958950be246133ddb47916d16b0c01e7e82e9c0c52e99592c47b1f46c691feb9b8179986e 0x554a3cbf006a95fe07e7b5041420e49daf3b755aea54dc07d02e68c167ea2b3cbb2d9bc7ee5591a0d2445e15a1e0b2d 0x7a117421e85520b0beffb43c519c7e8a9a4ad669fd81e5bf87629ab383329aadd85c1c2ad25ab4b8433b102809ff399 0x1219190a804bc2f070ffad0a634b463f942aebd93c0d705b642a20b6b3ba008507b15289f79219a19e9a5822c28cbe46 0xe9739e8db33e13d96e1171fcb3e7b5cc9acf9ee0c596352004bdd5a5a1bf650f227a6afa8bfd8a61c0dfaea766ed49f;
  cs false 0x460ffad28e56ff2a20d12454a7de75a7d8eca2115ae497128f19cc04d7d51341dbd9d9f909758787a14da798c41abfa 0x97c3dea452d076b58d0cff245d8ded3965dc23917aeecbf18afe0349e2dd391dacf84b2110711f3aa2df854c1aa4c28 0x1c182c60b77781fb96400d16522c9c751bdeb91adfb627d6982fa501216d5deba2d8e80c20057a5b413089a8818c1f0 0xfe46747248a0551e322d3a39e0fe09f20ad5f7b3b61fba1590b2d3057944105e0b303b0bec386058d49a4f6e3f44afc 0x2efda4fa92dc3d88b865e4e6ade433197659b7d2a4ce00a525a24fb446c706b2dd21e335233aedd9ce4bb49d5cb373 0xe89c354915c9f525cdc97c153823fd2546dab284826f3c44b2186a795add0f9bcbe514bf2a717069de24c630588575a;
  cs false 0x18761582d890a23fdcc93df3ed28cd79366c30d4b0e3e3fc7727da85491257e979db9d89cc15812a474a8e403012f35e 0x15b7dca7944b370b793ec0d3a9e804a73d9aa42d652ec1aa79b3604b1f78f67be190fa75842b7187965df36472114bb9 0x99dc7b1e6fe88672410c0f33dab9e17e8c3b6e0d2cdc630225c3aca9d4ebdd08c63097a1fc761c2380268bbee57256e 0x14475d36ceddd115c120608861f291421bbe6efcbe4035c9005bd7d13d6b6d92467812f322a06400659dfc427a96ad21 0x2b35e2f5f5c3cbec76ed43b9f30bccd5549dd7b0e41295df720548b5792aeb20fafb37e34ce6ea50d6a01c224babbb3 0x175167cd6fa6a6dffc10a786abb48baeff6e2c6e3a65a60ec580824559419a8df623acf643236fb1e8082bd11719e11c;
  cs false 0xa52fcc8adbf5c93ff4b59f6de2a47129435401f63b3f4bdb2c837b62db72c68ff7cc4833ec5418e7ac58a8d87bdb659 0x555ded83b0cadbc3b3234f990b8034a1a1460085abff6ebd1a0c716e9b23a5cfa7c39ed3a54d1faac0a12cb9e598b37 0x6ef72555d13ed89d931280d60592ba3126e1c9775cc9d02a3e58632fc443c647a9a01112c62a12f7613e7e59b2e5f29 0x2604963cd3e581dee43cce63d1a63fadadbc7f7f03aa4cc76075f1532ffa458acb9d4d7b821a0dad94fa5f7f52e38f9 0x9fd0145e19a801a6cc27d51020a7f9659d2a75d8a74f4ed246cee91f24f02c631d91e801f30bfe2f101ad56a94d27b5 0x17c52e240fd7612d5e2494b7f52670f01698af97699f98f8d902a91efb17a3acd0d3cef201716aefa78f2c95c8de36aa;
  cs true 0x102f9a5107c29f9e1da95d1eb70cf00c8a7fd694f8f66a67071d3af0e573afc168851b942c87e0aa7a06a4a8da14916f 0x544c734acaba7c9df47c09044423e1c81361523384935dc2d535c08d4ad804aa9d182232f843806e4bda2e584377b77 0xfa80813004a97b56abbec900199db59250176d45afc3eea8eefd2ad78e7bf8fa5bb881a4ec7eb60a68686fdd529c75e 0x18b66f12b47bcf8917769327a0bcb810eb5395a125ff92522212303762a8c64fe7192ea52928a68c992ddb5cbaa5488b 0x15e62665bbf53e1943746bafcc5beaa9e4f2e983a7472de68f3fa7015c9f800257baf7c1cab5ca1bbadf4ba7da32d444 0x18ed54d28c926bed33f9645f8dc0dfac703b0dc7dd9bf1cf981ad3bc8da807a7e5b9404aa8bf4797761e7022f2a85e40;
  cs false 0x18f80f86bca9a3e26d35f70f7adeb521ddaebcc80ae3f59b815e308342ed6ce30658e2c705c48928e67a8c3176256304 0xb6781c27ba4ba97123187f427e8b1b45d6e02477647cab145061260cb69d191426a740cc9778ae10bdf4c188a6dc6e7 0x7fe3a16c9cf82fc28a6edc66c2d6d67476ad33f0cbfc0722559e2907449c0dcdd0434c76aa30ef1253084466ea9b408 0xd0e5a4aed3846ed065ec2c7bddf4a24ff3bf50fd14821a3a9932aed513d53925c1a5da4c0d45d3a682a6dbc2a6f41b4 0x4cec54e5fcd94e76b7cfd1fe134c7250f21500b975ad9b477f6c1918934800b27f3108dec7400706ddde86efbf76393 0x16d60070e5aa5a097760f35189299895451a07468153e008bf6b3456006f6986802fd96a6e06bcd00d22d6c5a81cf671;
  cs false 0x1468626b78364cf9bc3cfd82f1213abf6279bb81b42505af309b3c069502cd9016bc0254fb85fae0da0f250fc85125d0 0x17426a26ac90e2a41592704ad64bc5bc0cad68c4030a2ea12a43c8b2dc25df0b2437c5163def4b325973cc19a33d3c08 0x10f50d42ba4184dd754834e4564cb7223d83152660b96d69b10df8286816ac71bda612d198a95d26893b4f0f17620d17 0x1147301552d5235ea5e5469300493f89ed4d13c554121d7304bd7795d7558d55260802c26ccdc8c521db64c02877a492 0x45810fdf7b423dea4d5865d20379a8c809fdeb5747333225e730eec949e1a8181ce1f6ad5ec9a487f7b8a684cb5661c 0x81da93bdc7dc6721cc86dab53d56103eb4330f6d2868ae87f7295616497fe3ea8fc04b1b7f3d99e22f723b89e1a8d31;
  cs false 0xe6cebc8a8f08ced07050cf15e740e535e581e96f82ba668ab89088f0900bdaf00950930555f96a7e6f0a19a4cc2bb58 0x58d5fdc81b1da03f17372a6a9f7e520511e92306dfec5d9f020b04d0cebdce7f1f8004296cdf17d1d1e357e7c7a052a 0x10b7cf16a0e575e28f3f04955275fc7e963d8fcca2811c818f521af4fce1af426446c8b059a66cb841ce6f5b2f146fce 0x16d790f9cadd44bb9517d47afcbd3f8bb94e114036355302f7de65618befb13d0abea01e8bd4f5211cb812efc7727c81 0x17e1f89fea0daf9c1582196fb35331e110bb35fdcf5090b8d20c26525e8993fb6687b16c32819fae1566155caf76e183 0x17a90aa146a0b41a907b669552059a0884edbc8f38b39e8cc33cd31643bd3374fd62abcc1d71a8c9dac7a7252aa4f560;
  cs false 0x27df18739e8f961c6feb7b94580d0d12c81e241044dba136d89550e0fcf38d006f4ee237bb55f9ac2f3f907acfaafd2 0xf391a7b091a70bf1c878903580b9c8c7c8b8c24387540359bc3661419322264d00a03fab6158a8d794276528a79b62d 0x157416f36c9a9926516945e00729e5aa294294e03510f2c26aa11a3b91ebbf42d9413ad0843b7655f25a1c6ab8206d0f 0x13f6df090d13fad28c2cbf206708f3f1a37e7d7bd2d213a22153659687eed62bb314a39323a029990bd2204d5615e8b 0x57ac17f30746c70fface7ca2ccafc6645985f12daefa94a4c7ab6854393d2b004719758a48667da57757da638cb050a 0xf16fdb2564c2702f7cbfe1d774cdfdac367879f7812c73c4422b9de6051c9515a7e6a0ee505b70a89b71c57b0677f8f;
  cs false 0xb24d45cade9d066a4f5002e49f0325f2e0b0c568bd49bcc5b081042bb00a7ea74b94fc567cabe1268cd4f23b28a9c9c 0xc13fe0628b9dcd9e4bf13d1d4d1b144ab051aa58a4298c0f23ca50967e957f9d8ff8cb7b173a237826b5f786597135c 0x57497bda9fb26f4843b251905bfe89fffebf09336d3f553b746c26295b6d2005ebe2dd3cbafb94f5ab28fb56fa10474 0xc26d5a326c2e69b191868e50860ae0f1815729c3b8fd72b817db8c44bdda782a8e94ce803f568ecae7dd839744a5997 0x175e33863797daf54dfcd923283b2b21c2bd4548c6f5d2416a3876f37870bd999371a96e90fe0c0ea78f69d428f53d6e 0x151228139ad96e5408932b5149e310cc2d854c5087b015748991e0d54056114dadb4e9bfbc6cb6a2b4b0afdc4c4326b2;
  cs false 0x9f54cfcc401eb4c96ff247e84616a92d858421b5c54a4642110fd9793eb6d419ad9008919924e89a39bdbce608dc5f0 0xacb594be563aef6ee1ed29d2f654ca3e10757c319b3614b36291b0438d3e4177e2e132b7394cc8ffa30977dddada98f 0x15c6f8e291f3f8328601d0139422e1d7bfd066bf03fc5cacaeffbcfc9bd743d7bcb8f405ae4616bdf08fcf348cb56b1e 0xe5842891c4be719abcbed1086ecb69658cc53eb8117bbf32e78df0f25adcc5f201b875eadef0bf3ab6467e3153eaae9 0x1505e56c7cc3b7e33a2bb9d3f0daf8a87d659fd433705dee38f4fff8bcb1f574b47bf031c9c1c44c92fcc4c39dc001fc 0x578ffb7cd3442ed0d8d5534d27ef0fdc2f1b34539684b869388284acf680f7abbbbbaa9ee438f51f3e76782878562f3;
  cs false 0x171ebd38bface70a8e06d359cfec10fe1768911971cd59859b0f01e8139a0f8f5a50779a6c6bcf461fa42cdcf94e881e 0xb997e730fccc6ab40e8171a5bcbc5307dca0d12aa2e573db5bf5445497f1db96e1614980c65336348c46f3bfe91b945 0xc3e79fef04b7defa4af012e8ce4fdf804cc0329bc636774fc899d901437190a805378f9d35ff2c067c591a912ccfc92 0x64e2e325affd9598a3aee390e6dd3fb9db8317def5eaa0d7b6cce2f2bec2dde3d016c90dd9c08ec8ccf724ada17421f 0x12e8048b91050af05774f08661e351e6c3bb5e993e86da7864e21a9df837a4753d11f5542b125c50e669ab45e37cbbf9 0x18157f6f94db99bc6352895576cbd215ea43e1b4823e1129a43bbf3e52aca09d74cdd7abf000dbeedaa2615ee263e584;
  cs false 0x4d57a88338293dd51fb57a907e7d8253b679afce9d36d41ac661724076e2efb595cf07cd046ad624f9b6280ad8869e 0x183a149d2abf8d9da12756a65d75905fca4ec14f8aeb67ddf362c1d9e3bffe2c0594c6f89765f5282b1e15686546093d 0x164143f6bcd89a4493c6592173a48cc455252c16564911a68c29b669bed500dec0a09e1744402049dee17e04ca9d8d48 0x1169dc5ec43d9567f6a9b3e51b910b2f6da318ce3efe25e3cf036f06a776da1aea24932e39cede32aaf98f88b246333c 0x63e1840b059434a486f14e5c281418884e1e717c70aaec52bc2d84cf9e10d6c3b85943927800b4274ea8dbc257cbd9e 0x719b8f0201a2fb91a6004486c9a2f7c5fa3c26e2c20b4b85c0ab6332b6389784f3680a82c0bf13d8f94e3688089d37d;
  cs false 0x70cc11c5dd644ae36c1a334ba6dbe9a2c7c8abb4e5ae8a6f582aa9b465c335ff240b4f314240cc99e8ccf480e56a288 0x13b904692090167c3f42468d41ffd50a0438ca2f45f7c3fd83031567d2bb3f3f67b29e03b0ebb6d8079e3a9adc782d44 0x11f90566791e011f398befc77ef9e35d6cd0e7dec478314e718d972526ed8dbf010bed41def57e329cd697962ee0af0f 0x18d648195c48ce81b50e3a072fd446e399495468834e064ef58899bc7589b281cc7624ed4605805674f33c253813cd49 0xcb0572c66448bbaa5f6d755833d8588ba57badbfc0a743e9ea01888edf36ebfc2f05b467c389992c2c4489faa0c51e8 0x12c76d468f8c340c6e9b6dd8d4e1273c62031df2539629def3d45662aa5f62bffb1828daacba9e086273a4bc1e3aae18;
  cs false 0x1749a6a161df976cf955e0937057d482fd562b75b5b773648b4c8122a234b56cee4c83666875812f0a04f23bcd1ac3c2 0x13f5ba17cb7fbde84a7130efc6a74cf3af31db9ab588c224d892135983cbc3c97f7d616e5cbb90e6d662c653a9383025 0x12a2a0c29075bb59d4e98baf7af2c56d86e215b0cf59ab2a391a70ecafb7f6a8492aaaec3257d3e7e226e0ffc6f59317 0xcf8900cd0f7b8accdf5a3e42f86eacbabd025d51897b664860ec639da8b887a6cdd745ca7595cf7126d62f56539d63b 0x9e28b914fd80be65aece1084d68fea558d2b6f029574a940c5498e6e2eaf9da6b50810169ff029fc0414e909a64e43 0x19919de75b0475fb1f3a84c6941f0b1c3d4ca049b2c225cf7e4db5fa27cf7c58ec5d108f7913d99332ff687c3eb3e08d;
  cs true 0x18eb5b5a93ce5eef6e805488d46ced54d69af68547966c7574b32c7ecf22cabd00d786181fa43527ae6aa3bee5e7a1f3 0x83f43ac4f91cc1224497ca96d451fcc48b7c2d9191b7c65f73a5a09618989c7fd41a8d22cf698bafe562c38b5a78f05 0x178ac2277c76c29465c08ee861b17f2af2612aee9a3174fd8735e2772e86ee1c108306f9ea1dfefee313e8bf86dd7c77 0x1419e5b59f0e71f9a236e0a1056bb5b9d9a9c912271fb090a7b39224d808009a9ceb3b71b5714c4386b4f925938f6007 0x45ff4fcd6a8dda513408f159cce6e82526fb90de02a67fcad895627e0e2f05a5f6b21c05761020904eb1fbb5d157a67 0x13804183b709ea4d2487dc5c6012f36e5b12bf0aff077da4c03c9f90fd6afa90e8879133a040b74512c34507c5ae670b;
  cs false 0xd64e65437e4f1652310c3ee111e12168ad45b9af83cf61ac6d5965f097975e84fa0c2537a6afc1a24a3f24cd0751918 0x9bc571d9c81d52d763cef54ec5853136de65d74db92b346a6ee698aee2ef64ab6aa5013d081a0ba90c50123fe37c59c 0xf6c46f6d92062cedd2c933b12d10e43c65db84aae4e9e7b9796cae67fbba26bd33240ad5bc48613868ec399ea6ab0b8 0x34759621612be714d4d3f2957a183482c461b5e4fc2e5c41530b0a3bde1dc66fd60102a6501b531d226c5687180801c 0xfd3058f940212a070ca8e15194a4f129bbc556587dc59763ba36ef8546d0fb5cf46e8f7373615018646252c39a635fe 0x85a4d8c3651603766955cd5be22b73b78ee9903a7b15a68c5e3187e1263d848baee25f486d2820fb908371006352082;
  cs false 0x29e51fb893ee7d40dc6b55d75cf752fbd1ea37047e79dd4c7cbdbdcad07ec89fb6ca47b58208ecde1c60f52a48837a9 0x15a5a2ff308d08eb3d6a1f568ee00a3034bb0ce3a29b05a7d705f851aa7a107700bc46154ad22bf5126f60c2541a31ad 0x96bf546b22420f88ba51705c3637f1f5a51ab0ee6650fa7937f783b49ddfe3baa5e286dcf52d1fe090e6b0111b6350c 0x5131227135d90b8a5267d629e8b1f904ba603e888aa8be18ed8a795bbb9b1e8bce96da324fb56742cc42e9c3723d873 0x18ae4483fc47f94141339cf97350254519984e3519215c9dd1c2a2427d95c78de7c674a71ae47b63b1a5c43113f793b6 0x5336c804a290450496e974a16f6f42c49628768779f0dec5c406d9d2b752f6588bf486818e0e84a7cf05a386c888637;
  cs false 0x1347ce42e72d0423275d1ac42bb7533bae07121f6d1088f732350140efa43a37bae356d5ce55b88fcd53fd8e99a0a542 0xdb702f6407fd45a39705586da0aabf0ae4401e0478051ce132b7749111865af4491930c99468d2cbeac57586e7238a5 0x9da1b766f4e2a93f4dd214b5e6d690a39e7e7d158b3fc3dfb826b23c9f694a483e281887049201f8e94b416bd658b49 0xbcb0f7c4d406391fea48dbf5a864a19c01edcd80f3356bd29a3bee16a4b6749eabacf4c4fc9c5e1a62f10cf70572122 0x112b4f10e16fafb5a81a7102f5212ffce530b03c7de62c4136f9f88dff538f8cda1d3967bdec2f4694686ba203930ec2 0x1560b32c207f3d663900529c775564e7e011c84612a72a396ede02ae033e3b0cd64ecf5fe8dad13955e1ecbd2958d904;
  cs false 0xd719a193fdfe0ef980cef8c4b7545800bc42559e469970f96c55343c95be056e4db5439bf605ca298784410389da493 0x132f35531c35f1611324348eb289e504535c29cf7b1adb177ee7249abebaec4c05be882b907bc2f657121ea81bd5f37a 0x34a7ec11809a9697db3e860c48799293f081731c6c5cff060cb25bdd1bdc660107cc30bd1f2fa23840a50036eead51b 0x229ba1c7ddae833418b6d57080532d05519f5f215fd9f46b14a9daf99c6f9311c9810f402f75fa89d1f5a7455a9867f 0xec665c9b7d7d145038f27cf1bdefa33380d4e5ab6bb04ddff036e528951b1a7d516d6886583d7e21d1307905b5f902a 0x686b285771e144590858d9b726cd6da9124fe95631e60b088b0b172af950d1cfb8e89dd01265e40b22d4781219abbe1;
  cs false 0x5ff41f0045631bace7e52d387a81c4879fd5b4bce19f5d315603dd739ae30b71ab2b8a38662843bb636b1c53fa4aca4 0x7b4d2186b9d4114afb4b695a5e5526203b3d8376c7b49c0ce8afb11be144369bdf9f282463ec8e21d91e76ba02e5045 0xe0c8827a2b39388021556aa336c1225a2e4d64366d2552758dbd255589324319657a249c3025a4138295796698f7eb8 0x17683dd13eb945a12be141d2f4bb4fa78443a0500839719745643d4b52dbcedec1520c3bb1c28ccc2a879c9b1f184bf7 0x165b04be216f84f6811b4b8c49507659eb19a635de911206eaaf5e68f9fc5f82d400028b53adc364f1229e526cd355b5 0x127ebd656c619f3e7814eb22d57b281feb7c938fdd94dac9e16c425fed2feb143b7c2419ed9daff697d6a219491b2d19;
  cs false 0x6be78829dc0f99b4239ae96382adbb4b1956d63965a70517056a540dee9b6032e30b013ac4a75cfebb0fce6cfa7f3f0 0x5fe67666e5a392297abbe352692d2eb28c2bcd1eed1bebaf9cabf1c9d6250725971c5bff79e523f127ab737732ddc87 0x9153b1075966ecfdc30ebb21ee99af093e45d024f0d4c8e4770ab62a033782563800c938e35e18a36d00c0523cc1d65 0x79a2698c9c6fd912e53d7790238a5fb5e4b97f4625b5195ad06b0052835bf7bbb5f6bf41b7cd9820425ca427aca131f 0xb371b356003ec5b739a38d30bd6e7c4423858d69e4fdc9f388d0365aa6d43cef2a14e3652fa93d91c7a56706ec6bd69 0xd0c20fe992e545b1bb22ba3808504a7421dc3cc57e3c90cea306d6d93d29ac4bc9edbff9dd5a5b2b68f0de50a6e65d9;
  cs false 0x10dc4a0d0f31b9c714df181b23de6f960b1eb0a9a810d038fcf020c8d7850dea36196312f009d4bd758ddcc75d6ea551 0x13782e3303391455d1a12cc893314bb2e4a94d2b188713bbb47f42eb62850415f85baa73ff4c488941399863186ec694 0xe2ec3c616145f4fd51842c3aa2e33e8236b4a45c05e5a08db210151090a265bda4b4afe55aa367a84e103ac656eb462 0x66a120ab4ea14b9485459035b1a54c4362617c107288a206b860a199d044217f87c086dbc81eb3a1c17fddbba908758 0xb410b778b7c34c1ea511ffb74d7e8d3d4b18187412bae1a3b0f638eeb92cff4162d8d48602e932fb167fcf5b8cbcba 0x1623f25eea79acf8b439ba8bcdf5ec2061763316daa508a6d71b7633c14983115a4cec17a36a21e70b582c63bb9b4783;
  cs false 0xea80b7204ed5599308ee05af092b9a901a6fc23bd7a2eb9737b2d8685a81c3aa80cc36645cf2c7dc0260e2d38953fd5 0xfd723628f12485a754e7d90dee94c5d94c632601d13ffe51f74e0bed0b62bea15e4dc4356799ec0deb96aa0d38860f7 0x41d90fbf85679d0d60070a3969e895b7f99a2b3e1746ed9e40bd839ba05873a3a9a09ffc9395e445189f25578e9b0d6 0x17f408d38b41c464f9166cd5d436e90848d7c8d00e24e4307f40cc68e946c7ded3142c4d9bb4f4448f4a4d9aeb85cb23 0x28fdcd25cd83eb1cf54730fef8b5c582ab6a08849f47a1d01d857a99568c4cce8e3a827e3f6eb4022734b2d0e5362b4 0x11a73afa8a2f20f5b4b82dd6dd8a624639a89eae5d7fe550850cf7f43fa4e5b50450163c0d660226b4e848a5519e0115;
  cs false 0x871aca53e21547ca80dd3899bd1db2b54ae2fd3b13d432cc917215492887daf5b15d11d5c9bdb4d71426302451c8915 0x443c5eb5c81596ff693ec5100626bc855328bd39346c9a0565c286aae7e9daf22a4c1ef4ec929e99ef5330654864221 0xd3cc35f7b8e3464def6f2d1fd8aa361ed84c994b0d75561fa8d69ce99f59af44d765fd1243c7e322fdb9d5d8de5b24 0xa09c72a3672e46fdec8bfe82334ef4d223380d3d8bb359b4cf118eeed9721f2e46afa6283bd493d3f518036cc154284 0x18f9efb356a913fd416f82560b9a7999de226e3121f1774cf2daa15d8f54d1e1e3c48e51c5861c749f17ced56b98d8d6 0x15b958a7f005d16e630982c61d5b87fdbf1f63a6aba2f30ec4bd0ca74a0855c4e164d64ce173e454245dd5a8c5ffcab5;
  cs false 0x7f09d244a8baed13308ca2451e5ddd1bf815a93bb0b6251928fff76db03c65f83a76a8ce75a70b06a77272fd22be356 0x341e0ffe31183cf0e26d9f34eabf40dcb730382b8996387e0af5df2e8dc9336c185a80b09f5a79d4b54f7e8d0946ebd 0xe0e35b0ba1fee263522aef471b0d1fd3556753c111cebec023462ae5ff80ccf30b306b3b274a9df0dee05838a9b6def 0x17653e8ebb138071d111be9a20d6df2d57ada6c22def4529e34fa45e22edd0ff759c852750f5be4b13fc794adbece758 0x4b68feca567850500d2d67cd80aa8dd0a8773d32a7bd5a6541153113a81cbbc33eb6cd6e38e66519c30f1a4c6cc0fdd 0x11a254e277c3d1ca8118bb06898beaaf73dbb193f32f247a1ea9b29bc2e4c98ee60e17b553df982c7aded0454282a8f5;
  cs false 0x469b1755b81f11261026d3f7352e52c452a1c85168b9b44073200fc4a3c8aa43e965becd32ec470278d246c3186b9f0 0x31132a11b239e544bb908a724179ef4d5a7fe1b548d30f43e6e8b718ef84405411d9a4c1d64dc4f930c09c0e0684a50 0x16c8952bf7708b84b3b2c3e1f6f5f25848c6c62a1f1fc447d2a1157eb970a28e761f4878e2a5f3aa22d813ebfa7766a4 0x12eef307195c894c14cb316b62f9ace3a1292cdad4500fbd9eb9dc3730fc16db614f51da23bbfd07fd5303874d2da6a1 0x14dec7243130c0e3c4551c7759a687427646fc122b2c7cd3bb25ab8048d290449f88ba0859fbdf3680a920683dc0b212 0x18736eae50768d9455f27270d775ef2f644f949673e82f41679c5d0abedc714d8acd3f627287ed1d8c3fca0bb9cc2d40;
  cs false 0x16371212de7f00d4a04c0993d7e1148c2bcbf8814a3da9019f9c06203df3ff87f1555afbe0f6643c2dda9a0fcf74275b 0xbec832d6709f8a2dce6b462902639b3f735c56479b55b0f9177d9c72645f175bcc3baa11ca8c3bfd2fd9c497c91b638 0xf4cc10a967a6ec85b40f2f9e2cd3e516a7dc2d2155b3050d830e25d83bbfbb1670fbe105f70819e4c421603012237cb 0xe731a3e5cdf7574f5b73b96336f98e2f2002ca5705b5c565f08c2014a292419e3aa5189c215db5a47046fb6dd5093ab 0xcbc51c01d90cb6f035fc63d5da38d32e98bf5825b0e2adabaad156cd5e4adbbc6802be0f500372fedbbc5f8353c56a7 0x6c8d38ac677e45f51b5047268502ec9da75d533d7d0f82968b6249fd4b07f3168671a4864c9da139f94740869c53241;
  cs false 0x6e7eae40710d0a755285e2eb40a79b769cb758c1dc74c46f2c133aa24ca0c7bb886818af28ad323a09a5c7f1075798e 0x1eac9fb1964c19b257d82fcc424784f1e88616fb265ee255e05eec297368fd9f34fe8e2022fa04116d741107ec6d7bb 0x9a09751fc80f3a268cc931aea4d04f2215848438c571edb4b2fe70744ab269c5de1b84c4057608682fcf17636ab8753 0xde9fe9c0529f0333572a3016fc2658484493afcdb91040779e191e02d25a2e554babe2888fe0bc6d7b5bf2afb744205 0x710e1bdb01ccb84e4293355803f1f34c7c152ab540c9116d4e2672df5e134427274b5eac5d92f01fb7faab6ce47cd5e 0x101193a39981375066a25bb56501ae371df9cf60951ca8257c451dabd2502b06e07216972cb0232e30a77a9e8bbe04e7;
  cs false 0x626af3fd5e3de116f78a45633d238fdf83206bd1d72e844036c1cbb5e78f9410d503a79e757ce712aa3f5aad02e6dd2 0x163571dfd01afdccd95bf54859a73c21c28f545cf43c5d82008c46d4d75164996cf3b783aafc814c26d5277bd3d0b12f 0x64765ce59b053c097da93024d5530074d6396ccf788f23238ea0f9b1b973cf1a93c959e4db7c1f904115a2fd27047e0 0x22ae71ef11350fab39318c58a47d8a7b681a32c7b08bf35170dd3d0371229457b4a36220308303bab6da3120d1c8e97 0x90678fb31a67470c6389e538e8250abd749a38d73ae2a4ef978613f5c3ffe844b99e46889c975a4234abb0a055b36d3 0x2de4c5970de3634e65ccab50e73689016ba5688ffabf08636d21de97de011d3c030966d4a974ff717b04873225207f8;
  cs false 0x54942fa8a3fa937dbfd3c9797bcfebf4e582406607f34437e11f590e5a7f4c10f2ee0277701b12cdbdb5d0478b77855 0x1141f7fc27a22893565c0a171b694564c621c09ef598c1120831f50cd6065c79e48296fa774ceaa2caa20a8e2529aa25 0x5da5df48e45ff32ba2df7b4d2f42508c7d737511cebd8de8dcb4a36f1504a23fa55e912812dd8ccc67a5bd7ee289047 0xd31d52462901544620f2cb6244782ba4a0956440c31344c8932e9178d162e28f99d303913d53a6c7d9d5bfac1f4cc01 0x68310b7b304cf3f2cc7f8cb0cd05e551cdae10c3f1c2ce178c2518f1653885de8d645feaba2e49dc1eb1608ab25d322 0x81e14e98ccc399d9423e11f587ab20d6e73ee1020f8ed23d4b73f1761a5e6e8b11706eb46dd955359c68f822f62c55f;
  cs false 0x180e3b8092de8e59e0a3925fe419fd8fcb4e5fa5de670ee0264551860746d4c236179cd1dc59b4ff2a214e4525f1bdf8 0xdeedeb0d2cea6fba73b9ede1dc7e628a8ccd639c4bc2417d99b156b59aa324eb05f5f0525168e840a1dbc93c8bc1f8d 0x795b97d96d0194d66b9bf4598fadbd3f554b470a7cc67a07066e6ae1529a0627b11fe6820bbd26528a7bee17d1bb259 0xcc2689f5fe92aec4cc82073673167dc3e8efe5638d4fd1a8d3f201c6aef6b6a1970304ebbbe4e51d7a8be8a4929e119 0xdf16e9734ffa8102b87388bc704469f939e961b8f383ab0c6341d3d5465011f878c505ac73dcf36842344ad1d17fe0 0x9fe64d0f63338a612867d3e250e7070b823d297fdc5090d866579a49162368f4d38a8ce0c3b80753c28f2784a88790a;
  cs true 0x1659328a1f781e595ee6b057661aa934fc7b5f1eb00f522662fc8be62b68d78d578a3e011d7625b3fd4e212dddfbf629 0x115cefaa98675a8cd1043673f4f721102ec334df8d3d4163a262b13ff87e471d42e73e345553835bcc792bf24f3e5ca2 0x55e2d55b292c96cef715e118635eaeae0cb12aae42f5327865e979f8cf70aa1feff40ab53134b4642a8e6f29cf0573e 0x52571ce51fca5c422ea691d5bca4618e5a803e2f2fa5cc9fc5bd62cf2e84ac959c0ecdf04797b43600c764c5acd65b5 0x17253ac1b9974c9d8e23710da7011ff072dea94a4f3f011d09da2f0efe4110e1e7aa5f0cc10d914a35e992099d14ad3b 0x2f2370c59454b376678ce725f0be62d8655cf2ffc0c7949fb5dc1c6ccbbf1ef7ed6076f17b64913433b4ad9825f5c29;
  cs false 0x90f8d45491df218a33095c9212e701669fad0e4f20fe8e84315cd18271834b827ffe0b8c258eefb85fe1e09bf668b35 0xe095b58e8f92ca28152542b9524d245012da8e4daa008321f6d22d723ee13b1528a56e79c2166a0927bcd42e6e71f80 0x4ff31067a8ddf7868560fd5d59eb382b8898b9e04e428b31d9b0d114edef84dea833ae3f65e71ed7b2df108bfb872bd 0x532663451df1eabdd10ae58992bc972dd62250d44545035a72dac48265f3cd677c597e1e9f5bd71434b727e9d0e08d6 0x1137b5a77078c76f603520027a091ca664a3b2be4758fba7ae80d446c017f90f833b08c7790cd3603e9adc568b9be696 0x28877770cc6a91c1e26a6d9ed01f957675ce664855292803c1b595939ea82b65db678ee4f29cb565a20f04d8f9f2f9d;
  cs true 0xf27b2f68fce372047d927c9047f961bac1fd0303ae84cfb12ce60f1b2e4e52d44c1d436621afcde5ed6ac68ea1ff85d 0x15812d76871f6ee67d46c4155725767918d8653a44347625e5b8bef0dc295bd1e846c3b7032c63c6ab4db33f0ec838c0 0xeac0fc78acdb230cd9a228167e7063d8799a97578584ead5c3aba1b6265948edcecf13dbbe5f2ef095789919813250a 0x1937dfd3c62a378d9dacf9b1b9c0815e31af14d7c60c7d3841fd59f8486530cb6dd338a06180bc424426ce80cca80ea2 0x59d935f4a1f1347b18dda4df606f527484ef077396bd7bd24aae5f77d578801ed912c1833a2b0b3ebd3da3f1df98483 0x166a3b70438bca973509e330ae3ba7e40eaea9bac4ce0fcf96679686b3cebf8a3998e90c307f4e7f84df93baa92ce13d;
  cs false 0x570205cffd0534f2517adb651a6d71bb4091f14594b7c42a3ab642b8542251a1288b9593c2035daac82b533e9505dd0 0xc74dd1fb97d603ffcd1d55db51790cccc2b6051982f0991b5bffb88e9f9d6d73c34b32725ae3fddd3172bc7110302b6 0x83221651436f20c813fa534551c6eeb4f3fcca0aeeaf23b17868579bbc7a0b3c966d6a19ed456742e703a7110ab237d 0x1069f0fcf8061d35931bee0bdd639c4ad15fe306678a75c4cca0c021e5f23ffa463b7fa8521cec04bd9eb2208d8e7159 0x8b25557203649c2bb6b9cf8450ebf469f035e5d0209c58d4886985b02c9e01ea9394192ac56c6d430d162d252c96add 0x114e4ce0e686afcb8d97b63272492a730762f5a64e13601d0803ac36fbf65c5119cc85942873291e423e55e3c2c4a4e1;
  cs false 0x12774cba6656c49002d1b66399abbaeaf8e8cdbf36594aa18ec755cbe351d3d4d71ef61957d2c7fa6360b1b89cbdbf6e 0x7f62ada515a6e6303d507158df43a18c2c00a6d4178ee9716bb2d51ef3db48f2486776a863edc7c2e2831c8d80a36e4 0xd2cf911361daadf3ae1508d7f99aeb410a11a9c0af7e0d9cde36ea4c85dad0ca3ce6276a8f56df377515ba7b91d9496 0xb017da23028100be63f0fad457602feea2b80c4b13e9929a459b74b8bdf03763e092af8a53af7a2c99cb48ad53465d 0xd5910f02ffe5ae75a5bb7ba88928a35aa470f342b5ea924e80737384497e23017d7c09bc2609fce2b648723fd330a1d 0x16325bcfe87917f418677f957b9dffe050badaa9e0c31099bea7ccf906b8c274168f60c77e20eb5547f5974e50503ef1;
  cs true 0xeefac067d69b4f610b6e9fa017c0bb0938fab6d63587809debf9befba197a38559a992ddada20664f384611d76ea257 0x133b8c95acda2bb20ee5920ddfacd6cadb2b505d5d5fc804e99eb404bcf5def0d1cedadfe34a8bb7892c0513f8254e8 0xbe8a855bfa5390c1184775142c2b750c4528138d4d5b04a527d86b1cb07263ac21eb57541a86c4e801f443f21c17567 0x3ffc6933b36684262030844a4e5b00ef3b1f7f401be460378526641f058751ba26ddd94aaa555e64296cb3b765a499 0xe31fba9f31f39333e4f6dc3184abc4e95c603b201ee934b0d47e18eb48afd6d54b869e2f8580368ab6e6ea3b1408a5c 0x101cc949e70988a9b4f8a0f2ab4be0ba841b3c5f84c1477cae0e7f986b126c107ff73c1dc46dafdb312aa3a84461728d;
  cs false 0x1481e7448080aaa7c9592d8b7e4d9ea0f968aaeea0fcef668ed8b1f1cb273ac4d896f0d5b05e5fc5dbac1432f2e0ca5a 0xc599b1170b74f761ee74360940db638564eeb8ee9a3df7fa43786d8dc7fba94c708787cb2bc482f67698fad64366464 0xbcf64da1bcaf8460db90e0492a37f2f6f0230efa75b32f784cc177863be061cd057454285fc6082ae26ce233cb21d22 0x17cbb9bac1de1e89100542cf467a502c72350500d68612c7f55a5e65e19683a840c757b4b52a570a0e8d6dec9413c555 0x7486ea0a377fe49ebde0461620ef05559f8f03c10cb251805b813e1bed6bc042eb56bc107bf2df2c0f335ecdb18a3f2 0xbd987ca33bb19ae9767616737b4d7c317935d98bd31e7e1d2cfc84aab88d9a115ce2518617420875a94b67e8a84c4a8;
  cs false 0x16bdaf46e2baa4cab17c60b684779c51f61f362dd0c01d9989fd36abc6ca37bdacc44b1ea2b0b0f20b20d7e09295fa1b 0x10fa58007295e5c206d02b07f503574f8eda89f15f01cc5c3293491b3694e9ab43e7988adcd689cf31a5422a4ddf1492 0x135dc7c6cf74a6257d7fa662ee200502ce2164d6b40858a995192456f51857444ce6823dab85c37015aaf39d459e7d0a 0x13842b856839d5bb3735038ad72fbe079663697e11d0c9eb19cfc21fbf9049fce140c02006bc1caa8219f4d27fc19bdc 0x16b881608edf0f8c56bb3ae451b3464312e3044078f4cd8e3ddd80c68304df631e35e5e3013222dedf6a00af6ce84285 0x3bbf12e9250f503cbdb170d79326cff174c364f1f46a8f01841ef9066b01ed4af18a8518b4b6d3f29f0633d14f5e0e2;
  cs false 0x14a9f7e8321507b561948dd66055151ca3f73e1e92a7a67485d85713d4e642f7bc1e0bd60bf86ff81f8a971ecb66e6f0 0x11ca7588870cb87d5d687a714ce3d2340cc39c7dadbf0a11cd0d6bc10a3fb8a669c3a18f333db295ea747cd96e28ed57 0x13de888db15792904818e3839d246efda9bebaf0f50f5b0cd4f6575515586a24dbe59aec7ee54c1a903ec92d93eb8d9 0x15cfe1fc5a6011f73caa6019ce6a18a0e01ba984f7788cffb7c60a36fdc55e81051d5f8c211f983b3ed9018c70a0052a 0x136a377c5151e6fe8d30e9bb57b78caa8309008ab436a0aa332948e3d24b4794bf427d53f39ef13dffb90b6dbff57918 0x11db4576758d92071dc58b6f5ea1587040810cd115f78c4c7cb5a736b15a150b7a926ca8d072de964093bffd6803714e;
  cs true 0x17ed0517dc46283639c6dcbd1238aa35a6e3bc4b088fc1862ea9c0a0eeec58d8b9593b5ee32ece8157fe785ffcba704b 0xd3f4562ad96264f0ff6904f140cacda94d8cb1742e5df79b750ce88fd8d9f5976ca3e33f7e439022806d7ca1350428a 0x2153e660ecf949caf8e2339391c43002090832f15c8501b99f3afa7ac866e047429bf0b5d43e78eea2a95353199aae7 0x909debc05aa1409cd8324260a41f90f1d6602d750c55957649454980998b80292225ddd0cd401564f9f4b439a1d1d53 0x178790aabb5f000d1b7d2056fe0cb5c0f712285d39ffcab09a85dbb4bfcb3eeb7bcc4400d8decc6ef4a7a95f1ddbe021 0x7fd8314e32588fe0f5106bdda5bd651ce6acb32a05b0d263e47c5ebf30e42b583c0d4b0b71605eb856daa08d74484ef;
  cs false 0x1a4a032fb286fb829bc42c0bbe0a92dcad29e820040bd15b9b53c1170f7c93fbccd9be4fd8b87b34f2535b02e65dc7f 0x35cf0e2739680d21acb7790558490a1c981f356f3a304e181ac29930da15c4da6bc1e9deb3e938cb5ae5a2ef4f00faa 0xa2df99bc4fc457cc714d58d65f74cec1ea311ca9f3e4e354611b339c1617d14a244e66bd936f2ba1e23a09c6b303b3c 0x4fe9221b04d891391d912288741f31bc880da00fd8d38ca5c721dd413df85308bffa9af02dbcec9533160cdd93cac33 0x17609cdf6995ab7d3275a2a885cc4786cb0dc69843b6244bc5cd8de6edc6afcc2669b7f61e11f7b941d2713dcd9bb113 0x256c18895f26c5f61c39af673d83e7b0f2edd10aa0961016f0dd005d00ededa19f0f0fd894354e51af051ee5ead800d;
  cs false 0x17f7a86f0fe522a3a801f0eaee08cf93be2a3ba5c5862c7ed58e5490a4a7a51a5376692084edd76dcae1bd8cd361636d 0xa17c630270bc254fc8e7fe89bc1e88e20c1050748dbe9967bad103584c4005d11412ab21e39eda89a5fbb030284c185 0xc21fa155829d7245ccb5822c9afbd3cdc79199fc381ac883e68fb36aba2a3c1bb4248c4667b763e306f49ab8782ba1f 0x111276553696ce4d4899ae32c05df94fe346f8513bfb2fc22cae680a9452d54a24170651b4aeffd1b24fa233fa77e80d 0x1289f317282e1852dcc260c9c532a6f89295c0c90feb2d41829280835517355ef14c28deb93a0ccb0745c74237e95bb1 0x17d455a9a1a67f63b3e7c2fd18665b164e11c5028de56c4bc00d8765931e4d61da4ff26bdff40cc9ccfac209a5d541b3;
  cs false 0x197f204f2f70eec1034392e231a38937257886dd5c5e0736048661446ca9794e8a0db74b85b598dccc6d2a2d80d85410 0x12abe910851b0f82b70e765145eab52ccacc525a67bc53de31d742cfbe0e1859f910b0f623663047431875eb4ae760c 0xd9d410e13f2556ec76a55cdd5bd8f7725b3fc67079a72a6a7deeb6752dc0e52d1d885ac59daf7c01cfed3016cd3bf77 0x7769b8297e54dab86db3c0e2b3d4493193bf9118d71bc4b6d4eb8f68f81ecb39d8d9057f116fe085fe552d715d7d4b6 0x246aeccc9c25d328f57dc504a269d7686b26c16cadf6a13ed331cde6654cf5d421fd403b5b6a7e675dd6761d5817dc3 0x18edc62bf93c78f9ba0ed003be38b9b1a86d18c44fc34005dfc395c5653d326122c90877fbdd3503c9848128dd9c19d7;
  cs false 0x17bfd2c2485c08dec14d76c038551bef7a974d5c1e5d58c6c4f9acef65e733cb15cf1a0e1c7c7576c233ec83fc4d4897 0x11bb2b2746891ddccdc6fd05e6c0022f123b66bf7f19edcb9840d060f6725339ec46cb9a8b80aa9256c276222005d09a 0x18d29cf24549b31181e881341c45a200c52e0fcdfb7e42120e519ea1c9d303e7214e00ea71a223413db42f35421adb80 0x1815d22223bf918b2a937cedf705bd167127d8f9907ce3d4900ee32d4f9573c8f4cd01a3f927caf2ab9001fb3583d2db 0x4255f643a78432d5b8b6789f33f0cac52373f6323b88c1d4fae706f60a03b8cb1051d2cf25ae6ce49560412076fc8f2 0xc5a678b970afc7258a2e7871a314487e047d0b9217aff1847333dc10d3ecba138dde08200cd11714a5b81f6b13aab4;
  cs false 0x97804fe3417e15cd159ae3fd088e46b9a6e1585eb706799720d141871fb9f13f26e5012a757e6dee4f8d7c515249a94 0x166ff3a37ec8c7bd7a4520923ead51f226f51f776bc5a8763c6a5bce0f819a11d640a429de73a9a6d1387ac790a54bf6 0xb5d2610b4806111b4fefcbfb1408b8ce56fbdabf57d3d99154423fafb580969a3defeb2364636b2f164441d08d967df 0x1d128ade52865e0e38fc603c74f359c28067b1c41c572c8b2674b7fe7127525562515360def9f43fc225378ccf149c 0x1920810a2fd9c6710a73afad2dba0f09551ef47cc13905934edcd81a80f1c4097836fe30333e8ec8221297ea5de48eb0 0x1853bc37ed57aa068bdae0379f0a4e164c9e4878ac51c48cec7c9efd10ad8dd28f48cf72d4bdc0c933dae86ba31df093;
  cs false 0x58b244988b00fa3cd984813a8773666942a648a5a5cbfa566054b13faddf46b74fe805df6323042737afb986a98e56a 0xe72aada912daa32fb4b1a5c19398856088d31f4cc6473865d89af28a68541b5fd444572cd1e08208d67a6e455dc79d8 0x5db537d8417b5eb9188b455881ed47982740e98ef2d003c8e9646e06b36c581ab2181d168d4abdfd1a397b97e393adf 0x21ba5c7df31780a1d6585a3cf99098b1c06eb850babae568ebff29f6fc0f60e9aa2e783919de36b3cdad042b129e940 0x11f2904ffd22de70bf24c1bb2a8b02f4baa4713974d4e0acb5e2a057d0590b072075c92506262ad2d6293e8cef848d3b 0x84d66c39a762904ed93ec253a64356f8753e666a72d432d1cea9bd5ca65fd2540575b92890bb6e53fedcb7645942017;
  cs false 0x8266883b8daaa592eab9a2a4c06441d640b839233c0d0ca134ca7bc7c144a54472a29ce71cb22cacf74f405f84fe6a9 0x16264b1b8d5bbf8e4a3253bd90b2f06012e08008a81e4947ac8ba66ce9253a092f8e67fe731ad3b2a6e0e1e21f55897f 0x15b0319e387c83160cdb6447d66e5b9e4b448518bdf00a00b9f4522b53f4093bbcfc77b4a9a37ac5581e530569cba116 0x15337636a9837964fa9e77b22d5e24facb3ecc51e849c1d41c04756519133dc3b1cccd5542d8fdf94ed94b3a6692f196 0x10089dd736316b807ac148db7256017cb138548cf5d513e1bf8bda40b1213cd54ac8d03260f12d4c8e1fa055cc35ecd4 0x11eb708273ff28336fc7b7abbf9b6bf649786441c15fdffbc2efe9b62c7cad0c5a4e36b0ef6d4647aa980ba70559b340;
  cs false 0x10ed16018355d9c8cc9184050c7130fc5edfb919aad0c452ecf785f323030d4e22d1ce52ddfd4e069bda75437153d722 0x75d2c1ad154a2245f74c9ad315991a5dba84ab400ceef62b2a769cc6af7abe417666c6cf7759b6362f728795cfb5da4 0x10a3e4e866115f11764be36f8befaf81bbe62f6b7b182cb3a335f18f2a9cc0df8bdbd5d5fdbfcc5a652a7a8c681f29bc 0x17ae3640dbc757948b47a36eddb4d985075feebfac8986268ac91d27b8840d415be2610e3307a452605e23d76212a0fb 0x34ba23e9cffe552139e44e5f1b7b096f64dd0a80b104c860ef80be56c60f6271aacfece2fe708f7eee73a0b891a3847 0x4e20e46c2e408b6cd0cba5bf85944cd70cb82e9915fb1ff32c1fe71b827bdac4acfc38eb813a08c226bb0d54eaef11;
  cs false 0xdf4496d28372c6b0fba920f16000b7abfa835aa6b2b63de5ecf7f1476121c7f73841ad149a62576e2c271ca5449a074 0x1933f82f24cdbf7016f87a1af6fa0b7c5bb61f11b2aa47994a59dee0a3ca5c792c8b32905e0d1eeb14361483fa589940 0x189077e5e40feeac3f52a9712f8119b2bccf5daccb923b5f2ebd0c52e29ad9f450b9cb0060ee1a82805bec8b8b8f00a8 0x32b3eee7f40d757d942149e12f5573cece4e87f2a346eb5267e1a5ddfd19c8b167bb456058d67559a38d0bb2aadcff8 0x7cd07fc9f2d06b3ed5b7c1925ce7cc3b6bc21e32ab64aff86be8f14dade8f21cea90965638dd2b469ff5fa12bfcf7a0 0x3f0529852b3eb84b2412e2a1bd290551c4b46b1cf4c54c5756eec3856717cba1d2955ccbab5891e0c135166cb540aed;
  cs true 0x666e58aca0b729e95ea4bab419e2cd2bc65f7da000f91892a7357345631d4b3ecb198a53ee28325559bd23ec865fbf9 0x8633b61a90908026301cf76d1a22990b8b69ffd2678c6c1711f51b18861e931d68b342d255ef13dbe49337f4879a19d 0x1716c2eabd0b06ec9b32ef30d7e2798867f72855ca6efc58f391107b6d54d863a8fee9067fd4e29ebf29383b3965dec5 0x88d1a00d7945e5d3c0cd99decf9139daa3021e099377f11de56e34d5eede7ceb654573ea3f58589a39d46e243bf0c85 0x16b5797efbdb47802469a90e0daa00e473f6e85d08be88c1c292b1cb8cf1cf29307b8d59bac690fec62aa9c96557a42c 0x17d71d912099591d2c8822d98ef5c5e32df4d8c4acfebbdec3f872290cede678fff2620753492e3e132dbd11053b6ebb;
  cs false 0xe68ab5a4d526fc19270bc2f91821e371c8664ef0631a05879c9bd69ba723ed6e0a684b0c25434c5edba4bccb353cf1c 0x184091b7e089888b3bc638ff8c14b14d9bfa722c7261eb911858b58c3da324531269fa6656d05f63e863be11a8e6785d 0xfb0897c6a5e9e7c36f1d137d507cce74061583f31ee742bc58d8c4d0c2c74a2d3250ee142aaf98a4b8571c53c7a0e2f 0x13cabe9b8bbbda34c5c597f09e867ae87be3152e774275fcd705f86112e34db29d20325479b3517736c3ab1da87e304f 0x62f1321cde54e59184d8a83d364981752740017e51be51d8cb2504e02d8dbcf9979c0b4388f672cd54f88526080d8ca 0xafa1833443a906c51cd428e3a462f36dd6088a105c25f69a13872e5443250be8122c57332637c221aa544bcf854eb2;
  cs false 0x129ade4edf77268f4db852b4e4a17061324b807916cfba7794f267e0b989389654f1b8cc84e8784f930ba0c9cfa1ba89 0xeb3557cbd67cc6a1f1b395257be433cbe52a091875f416a0b69d33fa3068c96834d97f9b7274a99fa4e431c49614fc7 0x380da0a5c0dce966c9e4200301c6970397d9cd5ffaf046ba7dc206c1951e61167aeb624783eab496d0c6fc19e2e97c 0xe6318df6e7b2673b9de5b02501d90c40f6d4bbf2bf7f545d9c6907342d372392f6715b55d941fa3c7cec9917fd165c 0x55af490d043e84e71899003490e97196ddbdce6ffc7fc95f274e29841953c8d32f9b628a064489967dec4d97405b92e 0xadca03ef06dd4339c153e138f77b745ab0839f02c343d4231d115ed31ea250edead61b28037822c27c3e8a8ab5d2281;
  cs true 0xef531e40319d2ee72fa2fa095dc8255290c0528d2093e53a69c9557dfda9bbd8af1d4948f02b4c4ead6c75e9892fe95 0x4e132465fe9d4a296512d0d54a6798a633d20af68e45b90704556089e410194c7d5c3afa2ed946620d9bcaeda3c853f 0x6473baa58a07ce361988c1464af53a4f9ec3c5d5e9f72f1cc8b2a74a2d6d7c2e35b63e1d26ff3be604f629af6725865 0x121d65fdfca24fa42b29501a6a5168a5b79413f9b1336b4e0edf674c5b089f37396bbb4b61854f681d8ea53382b3b0f3 0x137e0c9707d19c5fd4ed53f0116ed7ba101f3ff0c30193402132c55662f64c7ff3e6fcbbc68ea2e326498795eaade9b2 0xa6cab3d443336ac39dc82f4c9de90d94be5e288102551ebc515b138a0a66f46c0a493354bcfbc7b1f33c6cbfd92a690;
  cs false 0x7a8d2687d00bd31c6deabbaaf7823eb8455d6c8fd3ad56885479b9d27de6f1275f10cd264b2e2025ea3c8c532536da 0x2b3fcebbcf8a0d654e3ca408789aba536b25d90e07829b4fa894b529c52117a3bfb285884f0ab7967b435e6f0fcde3 0x6c336b3586085c4462dfbbb8373705a0ed363a752ee06fbfb0530d6c26f0de63e1790cae0cb16f6e5bc49674fd4e905 0x165004e1ceec8a74cf5f5b3857faa4959cea3321634aa6cfa809d25d4b40e2506686184b1e8d20c248be7919a96754f3 0x18ade96921f7253fcb20d11be9fc1bbff3b041c03d9ee396aad3ed919aabdfa97348ee53b0f1a79228f62a9b395c0b05 0xb328f0914a249235af95da6d5ad790e3035a1343127a5f3a319260319d09bfc9ab16620a51e73731a203d8eaf228e40;
  cs true 0x5bc2ee971c7a8f4c9c8c4b5179379fbcf96f176b47ad7e3d29a580374302e18eb7186faefafd6b1b112845a67ce7842 0x122cf39ca870c2bb1fedfacbbfe4994c7bd98ee0fda795e1890a4587273ce744f1028173f0a9d2d90dc7b43f48019cc6 0xcfe47a7097c9485f3b4ee3309a65c7b390a8a74317f998f163ffa1e1c1fd64e03b651e1c8e171c6643617ac51fc8788 0xb923b1f33c4cada64eb7856a169f18bd381ac71104e498bb9672ba7b18f0bf35578be1bdcf4e998e59edeea901a42b0 0x8d5b91df9e5813f92ce7e6f16301735321f0c6d3dc13f9c7bdad32374532af1b2f66e331244a6405f982bd8352048b2 0xf3ce29d0fd4a4aace5fd83898712a84a736d78c886219e43883ba2442d58494ec6e40bb24e55de3b7ca594c71ef4caa;
  cs false 0xbd11ff595f6f425b73190ff1bc3b1185a392b066b5f70f0b60315282838f6f3b1a97e25328a565ad8ad9a8c40507dc5 0xeb959b3ed80e645d9f12946803b622d0ae70583e928f2ab10b5b552a6a52ea752b13c2992ff599c7f9883379ac60841 0x203371793afdebd043e56cff7396acb9eb2343744a3be880ebe1c254d24509426681b84ccbe4437a6d94eb9e74a01f3 0x180978f9b3e12261a94ca5edc68b8da899895202cb52a0bf1d37e1dd3f12fdbdbff8265b66dfffc010985a695d5e1e16 0xfa43fa4c0b837a66cdf4999a4120e2ddcbd8e16d85e99ff0c2e1d08bbca35b014403da4f032399eaf093daf96caa087 0x1805ad70ee777a804f227398b7626cda026b41e4b4252c3bcf2f56a7928831832fbc412166354fd6a0d94099c0fe4e48;
  cs false 0x1772183bca9ac9957c5b3d87d5169228a1124223eb22e00cf7578e7f767cadb3dd479e81d3d57f4061ab311d074b76e8 0x17e044bec202544c70a131d7f83c49695395ead50c5bb4e062b296e1f1dd2b592b7f7289b31f10c913c2356b7b38b49c 0xf5fa9c777c92e68d695fd8a1566fff610638f0bb4043cbe0f71fdd9660409112a2c77cbed9aca3b5ccdeb924338cd41 0x13f9e059ad59df0ebef64ef3c318d024b8409941b295200116546f58f67ed9fd513bf93485606edf302a4ca47552c334 0x306279909a168f5355d11932026a4320dbd5b9cc7383a6af3b2fb83f18bece8ab12e69705683822271fab82366786b8 0x45b5370fea6b5e57504307d4e89ff0774a45793a96ac5eb77f5e122cec8581e46df06f75c36ad9efc8d35ce71cdb338;
  cs true 0x1226a1695e129055d3a84b00ab55f04d3ea0133ca571bfdb8392f4a2145af514b6cb490d858c9bd838b23426150b377e 0x8ed5287a79f263665b335cd8c6d4da35426f82d678bd29c223114409514e23c98b5c9542c19826cc23feb7c1a0bd177 0x170a5303b3de825a4f710b824ce7f98d624c58648adf6940e4e5f7c4d125e2e725b32bfcf3c804859ebc353448367c95 0x54cdb447d2bdab9ef1733ad1f32c03475f975ea205b2987e1fa9628820089be3219d53391f6721bd8f465a5d7894e2f 0x1186a7a3bdeaf28feac7cd2b07254c9c229f6790a71d25aaeb5bf8422d066a4f52b984c9a623b04454669d5c51d2c680 0xf3806357ef7ae87be68ba4cd29dbe1eae313aec6fcf39e3abe8f33022b269ad90b0fcf74f51749ae3bff337d0c93017;
  cs false 0x13bee57448e4215188795dc9b4a690b5791e1c7a5068f4727f7049faac9ccdfb9a5cb198e59cd52d84307a5616a34e4c 0x41cf88ff2dc069314712cdba9ea439c57cd048f7eb9cdcef5a90270f06480c2d2f70c2637828619ba7ec5757c5cb208 0x15048c24f943cd8541a305d7a5be9b84db68356cde79f61f8fdd5712809ab29e21d2f595e6e997097ba5c453f98f2cf7 0x1990fc77fdf33404386d18ee8b6b4778e2ba72d9f4bc6ca38838c70831638f3c3568da44ebab93817cba0e8156d3b452 0x19f80500e3b9c631a74e0193b6d1945c1642edb7701f5c8b6208d96c25caf3b1731a03aefdbb0c43b4bff93ea4c88371 0x12abe7a787b969c9398d107e6389ca9d688f06e2a67ef5f0a509414cc7cb36ab2df1433e35f48063533e41153cddde78;
  cs false 0x171e8aa39a82dc3a76d243bb34be7e878d317845af0b14bbac4c3045c11d2029e293ff9c13d5cc1152cabf55e8f0a2b6 0xa93764869494c7ed351880e8f9e161fcde61806020aa0a84fa4e0ffd8fd56290ff81456d2748675df44ab3938314350 0x10626bd6dd515eff0b9654085b419e5f7cdb8323b9eef4b37073b79a86fbffce15eac93c9aa8a9f8afc2c15c056fad0e 0x101f4553f1ab8b66f4bac56f68f2d639972e2a648739127deb6935651b04c9b949af14ff91c291e17db8e5fbc0404b63 0x47ee88182eed9979d99c14dbf46dbd332876317b41c59763c9702d2183592bae17dea8217c3fbeff2afde0daa8fcbaf 0x10c4c5c189903d49027a57497aba143ae2552705c42ca62357cde1434e01966f45df08b0d7d8c78d45c952ce734ef141;
  cs false 0x16e382b3f85d8834c14bddc367de6e54973462bbedb7913afbf9ec3b89c452246d067a4a42fdbfd4d72c9cd67b92533c 0x234a68628f479a56a244e87229dbc78e30206571b523877995828d2266f7f9d11997722c44af45e73a4777f87598baa 0xa10ad78620a949df18c49b90d9dac43e2861621b95a218abb33c312721348e6c0fc04efdf8ec6673633a9c8adecde08 0x15c1e8b0b70bd922368a8b2fe826131db580bd8407679546f8c52038dc67f73b115cc546117770899bbe8703af447cd3 0x45326affc45dfaf888077de05b8bd57b71ea2bf648da889dddf3b2164b766127530b6885007dddd4253149e12f14b3 0x11347e22079a284392573d155f0eda09fbb001b11b09de498412e6be26b689a7bd8f52a8d0c2049fb8dca96399e4ea60;
  cs true 0xe99d0e3c8169f7c776ee0566a7de5559b2fd29e72aec53dfb3959c320cfe7d7574ea3b0455c79669c0e1475c8886138 0x5fb12df7930d62dc73203b8e5cd6b04303d50cd88d148d7d4a2b2c5e3e531047492e379aa245730f7702b599d51520 0x110ac3053e8d3c2d843549599814d6673f6da4217bb637dfbfe86085b24ec7fa19da32824a68b13b57d96f203c3090ab 0x748ec378f47e9ab41667380e96050e5de081ac588e600c5e4e38993f225e1ff4ad0929e3ffa968dbc8f34f362e7938f 0x288cd18b0e5cdc0296f9011d51fa8130a2e29eba05e45e1efac55ab254dc06031b3247c99cc4d7c9e0938353f4978ea 0x1fbad12934f18fbebc9e74a3aaef4bb97fed5f5e730b3efdf0fa8fe541b8f132fb9d4e3290cba8ef2fc447bc60d636a;
  cs false 0xcf775b869cc282e72c964f52077b0e173c082e2b4dcd8f86c3d46540eda32002a1b2f55df55582c7577760d5ddf8bf9 0x750187223b5a32253e4bfec6f5fae1137c898f7a8194a08335427bc0e880f2a71dd3490200e3274b31375db95f355ae 0x1094e29b0eb8cf504224266ba76baa758e2faabb0ea981c251b112ba51a46aa56d2b6002b83962c5e3e4e14d1debc7cb 0xd6f7d608e46a2115ef6ffd0c982c0fe5bbba6b0bfd451461bbe5023cdcaa8c8fb3243372c5073009bba6113aa0584cb 0x2ab1bbe896c53fa58c13690dfefeb73dcb6273d3fdc4ee4478ebb3948147d83f0b1394b23f5f83252b9911a7900caba 0xc76e6a239faabaf99d51610be3ddc78782606cc3be930d792a390c778ce5680cce58b7912bb3c291370108619dc1d8;
  cs false 0x18817dd747149781bb8c0bf05d93785dab4069c2876dfcafe4f7f0fd3f1cc4f3d5973c9405ad651e2863dc6d8d6fdca9 0xfad077cb7140036a65b57d48edc17008d0a8cf5f2668e541625b25a4f2b1c6cf57652ac18a6b03169ebb75351a306dc 0x4fcc36cb62f756488cbfbacba639b55c91022f249c183b4020682d66a906122f294949423e49ebe9e09d7de60eda22 0xde317a20ba3aa4b0f9c8b2e6c8cc398b4baf84d52112763a0124897d1201a1d90eaf94a7200dffb3d0708b0f121599d 0x18b64a6258ff6fa303c41f58c1dbe1e12d84e272e317468d3d29903ba5c47764a9042b232789537b81972784fc8d21af 0xd217b1ae9f0dcda7cdb3021f6c1faefea58b0461fb92b992e18a05d9808298caf3130f2a5d95cfc6f56e3e77ca9a1c8;
  cs false 0x199c2bb7de13185f6f51f094b5b84f903da84651246aa36644eb000ee7c25ef3a2b34014fbdc73f71ceee17165d1b71a 0x13e8a8b7df1245e0ff58062902d3f57516768323eb426dd8f4c93c1452e6ef7de1fd8257b9942be50e2ccf470968e9a1 0xc377092ad8ca29043639a25e8ff30a0cbfcfcb5f8d36833a96562bd6a96fd3de5e96fc24e94b63ea2b9defa1454f4b5 0x1724c411fc070a6f704d576a93af83cd5995e535d9d720daca74a17e5bd867509690123155b43ede315243b0c320226a 0xecabb9e8425b7fccd2b1e5271965b6f23c8aea34d9bb2229510e7eb7aac39dba774d07d7e9fe42f5230adb7fe36f316 0xbf2fe337b88a0b9c1cb229b27d56602845e1cc9994f0b942a8915e02fb23e1689b7df58c1bc2c02253b7016a370bb49;
  cs false 0x5b92615f72779002bb2dbff963b1b6f94ac34c2f195e2fa1e2d6de19a6b9c679367c30f85add9d49560d634b3177ff6 0x10d697efb1a217e0cb2599183b58e3c6d86349ded56af0fcbc44147ad87a6a6ef10fe972d2151fef5807efe7c9636171 0x1279b300c7b90979412effd2f03a258ad43ff65cb4e88f1bd6d1dbdf02da92516b4ccbfe2b69cc46ac88a320e1473fbb 0xf5d6b9527dbc157c31c021c54ad0693ffffb38120dd6fcdba5962f3ded8ccb1901ac5a5f09ae1a520b0c09be1311e6a 0x1b23eed140cd1b3bb6e04f3abe8213b6578827de2bda58bebb135ef053e7453123167cdd29642216f993d4f07d5783c 0x5633633214ec15e5c72b75fe6f88a79fceceffa76539ad448d34041f9c12ec2a4788d82996e83af6cf39b805f6b41dd;
  cs false 0xca5924373e6e1ee73966f7a88655b5852ef607a79688b5c45280fb6666c5aa35f7513c82ac09e58cda4a75a6e237243 0x1525249f9997c46c56fd4e261ee92781de850dd2a4ca047372066183638c97c3f7b0aece4f15e8dbffca715fb6d778f2 0x10d6682df6bc77e2f17f22734eb9e7dd1689b586fccd96462d5050f9c01917d46647c192be384959656aea69447d2bd4 0x4300af8edcdd04ca0909ed0ed4d5271d0a8d1556c9a1cf8f34df6b812f99a8f1fc4d20722f10090fdaf8a823aef2bb8 0xede16ca731b7572dac98b027da4644429a7bdc91220fdd076a8694b420396e732af36146fcecc2c0b1dd455a54884a0 0xae9976f57004c5df248a268353cce1acd30e3aa01b4bcac72200117634ebc9da43842e42d82b691a1dc9906b9769416;
  cs false 0x34395269b06af9014e7c04bb31c795ff008290d56aef6a8269103d7b34a38a42de4dd37ce7c786d3efa7d30c4a566b1 0xc81192db584c481513b538780f4f78d885ce623c65966a975f9def714dbea628c41d8badc600b2f7e311a362318d527 0xcc7c65ef9ad1d515c0b81e766bbaee862da2636069416a706b8556cbda4e2e8de555f9283d0c1bab117e4e6176dc5d9 0x7c73db8334db4da937c83f9f630adca27d7531d1cb56a851460c22a792ba2cba841fdd079422a70b8698138568aacda 0xaededf64f5102d9000a2e6de70389a8c1db55fcdb5df0ef799567c063080b2a3c8fb3c9fcf57a7ac0b93bd3c4768841 0x5908f8b48c8015994d1b73c8a62c1e134819f40b7db0c98adb690ee705755322ca18d1dcb24e0c0e5a1fad3663cc4f9;
  cs false 0xc11d9ed2e796229709cf186d99670d684d01e7197a32ebc6df449b36ee7330e11932523e0186a0cb2ef8acff385a14b 0x27883caef1dc0ff9ca1f2e5338898c753000d110c6cf86c4512facf99d0de03edcd3685446a9c5138c367d950af4f60 0x181ca6f6a073ede73526073763fe8680472099d5903917fd49518c9ee3eebba63fdb0b8bc075b64451de0b42f1c333ae 0x9683bf15f0bbabb07fe7eff862ea32934a6e6f2932f058bfeb43ae9afc5b38e4ed4df9ea07e6c764f865305316314a7 0x745fd3e4a2449fdcbb1b193cccb296b7a33597f7ee3ad62d1ddcb76f4ee839ef23f60024570b1ceddcfc4c6c1651b46 0x61ec268bbd449a1b1bdd8bea8c5e1b03e30359c76923aa2aab12b36aeb29721ba4c089aaacb6c7b836ee6af2d2b5e10;
  cs false 0x77c93aca4c20646a89874206fb55b9e371e8203b1fdf2f73a1c60be7d8c958a658705897069e43e69c5388eae3d5332 0x9875313543bc8d4e5a9802f53e05b9996ad8d388e86953a4635994dc6ad2ef720acb0d3c5cefc7b4dff6ced5b744c9 0x1469aad83003dd63213f94d085a672ebf8a3fd14e15d87577ce9d7034265b3f926fc165850679415adb071b57d432f9 0x11a0279868fd83ff8453accd9d3e2c866f7831f6572bce06008e8487e81cbb9088a628c7bffe52876ab48604e0b8490d 0xa6ca5d19314c437dbcdd97c379db711022f5d1dcdbce24008d21436d992e2c0482919db933344753e31c49a135b3a43 0x5686077b62de66e8ebfca8459aa9d4680aa5c2e27fb656c4757d523993b1d16b8d83b43d59dab7f792f08e17583ced9;
  cs false 0x10f9751e154c40d2819e0c81094477d5b888bc0d807ca92dc983025c89c44f6a1fc0b567f19887f88e5c8a47e12dabae 0x35e961f742fcea6def53192c4e67bfb701d7d27bda37470a77d5d873cd26b3c6bcf0f4982d99362e3a12f24706751c 0xb28ac43b397bfb952cc931570a201678e411f4e328a1f72b4c6e4414c7cb7b976c068c20b089a886e359dce65885925 0x11b77e928bfb20e965c6989f0863a8dbd46a1e4f530894888a5d6e1f16979002324d557c2f82acc38f7a795572d0c7d1 0xefef7b5956c77f6520da576e3d56073148a4a25d50ba7019a7bf91ec747011ad33e2d03d2bbe1e047131d7f7907cd06 0x115a292c0745400ccbafccbe6ab536e8d756fa62d9a1f01de4223f7b344e5e8bf2d79f3e25356c7f4ec5b0e2e1841fee;
  cs true 0xb7e9474830ae0cfd1006e8e79d56d1bf9625e37a7757f3cdd544541b6b7cd0703e8e92dd587976d0a710ef19c90d376 0xebcd2594f39b50ce10d13106c340f27376e11052426eca433ecdc1c9368cd583aa74325e73b8b0358fca3874e46c395 0xee6d18df233d34d44c7510f7136b10eb7d09628b4a97d19f1addbcef15e31dd5ed81b99655e782ffe9bf00a45471f31 0x99d269c8aeda5508016dc481825c7e73c5eb25abd49dc57f47adf2525ce5037ab62a771cc4271b6cb6aadd31470e0e2 0x20eab3a964f913192068ec54f0604e165f6d14b8ff1cb91d73a95e06cef9772f7380ac0ed8d6a044bea94065242525e 0x10c5ebc74a14bb99f1e8e86d28e83893d79197a48d3563ae0e9a0a236bff8b1b793d1e9d154bcf810fcb93347903e212;
  cs false 0x1099e845f2131805973deb24c7ba5feceee8c48fd289a2c3cb0f3cb370a20ec59d3605537b3e9e096d72e7da0f40ac75 0x19df14b58186c2e0006c6c4daa0d5195b08200526f27887b5fda10c1c02bb5756f83001e0648590fc057786e594e5797 0x1aa10e30a44a34108fc0a553b35cb621436cd7b20450343795f41fb26fb64b90cf8dc864b2920e937b280040bd51e43 0x8e302d37fcb7a4c529b4663d106928488a0541a6c2b87ae4711756a0b3e968e3a8fd58274ec09e77f1c80a2dd397c73 0x199f035bff0618c20b58cad8d4efbb2272309ae58517a4d2129a26817f6f5402eec71db87b4706695c407a7890dc9cfc 0xb45c0771ad3c12592477fd6bd7e4f7649fe4d6a295c2989ecfad2764abf87fbd5808980d6c42b558637fb2a954dfdb0;
  cs false 0x16b9f08daac8c86c1ae2a075413d016731f75c93eab2be30c35b2171ab01fc5a43d47eeb3c7f72c48bfcde07f6ce5694 0x633ecf0005a01c7ad77bccde3c7edb07b38f009e4ab4761802a84b645fc27728fd73732e7c84bc51c1faeedad0974cf 0xb4d642f382942bc4754f87c58e1afa4d8ea8f1713aeff5e4d580a54505a97975965e76ef90e16b3fc1a964ea6cd120f 0xf47c752e47459f487686ed13269a34fe02c9fc5aed77d96001e3e7edda07ac3987bc82f9bf11789d2478583f869e871 0x13df222f3e9ca5f621a390f9982e6d372d9017dd3b876f2e64e8a2f36b74539d710cb730e340ff9a8abc39a27aa8f7f8 0xcd107026baa475cc27450cf3c42837768b089ad924aa83188278fdeb8eb87503aa765f0caa08bae6d52257c02406857;
  cs false 0x12dadd8a4152f7d5a7037edad2f8864b3e4bdd360c8ef789f440e4af369bc0620b71ae99abaa89a0aec908b7a9ca5833 0x10315ca9a274ddb06dc7504c2c5644ce7e2681698449c0016a1ef51e6d7b2bd586f25fac8caf6d130568e1ebf397f7e 0x5ea655afcd2efc1c04432a5d46c18bfdaf6340fb7ac0111e45e7c777e92659027b054aa651c74ab0f25bf237fcf4693 0x86c2c22a49d64cc858d828a58152b03a3bf8985094e9f1dfe1f3865346deebbdb5e46a3d9543948e9bb6b02c45ec67b 0xdaafb542b5def29a67c5e50e1de6a8405609792bf53a9e51d38bf9f98a3bad49ff293ef8b8372056969adff09aea73f 0x12bea35e6771580571fabafd2e0d661af128bee8c79630295e5071cfa0157c5899fef6f8237c6281eb46c061cfca5cf8;
  cs false 0x131327c4c01ef71c90dfe2f3a2cc8eab70592422117b79fd7e40b2b010b5f8e3652521b2478bd1327839c9d977b2d6ec 0x9d039627abf854e720fc2af327606de00ab14d0348be0e0ffa566e38c6a240cfb5176703a401a2fc623e29e52b26b27 0x1e2b53f797a4e583245928b083be7f1526b5d208a7b756385535b976e2b35f3552fed867d0ccaf8cb076f55335462d1 0x114f12e65f91bf7158887d6a9544d8f54a65ccf8feaa06ece0392f6d075fcd74e2bc82db7fafea5b96c8c646ff0f57a1 0xad8acd0ccf68c8353e3eeda830efa8b33b6b4d24a72b8048f713ff41d048e390e7de3862d62a93703e0c9208dcde6a9 0x14465361cd644277de1b40df2282e07e351f2f8067270d447b1a8c07ebe626e165fba8b5927ea03cea1a646c2f874f28;
  cs false 0x16438fe7d0026e36444dc295167a21dd7186ef71c6eea29574b91a83bdba5fb05adde148eeaabf4340b200e2406ab0cf 0x12ddb6c43289dd64bb23f79b2509ebd0f838c5733274e5cb78b4371add376d0dd9e8e6d04c6c6674d9cedb00a524fd03 0x5fe6baf5384f0d2d25e0d18beded8d68c4ea7f207b16684719fc828b7291d9fe0618eb10ff0642068a23de2cd19b0dd 0xec32fabfc71d8a82b9ca4d042161400718e7b2745ba393faed4a88f672c48d5894d1adecf8b77bdbea2a62d2b05067d 0x1962af789be47103b81821224fcf73118af173b17cd905fa022ccf09292fc2f9d728191a506fe16f88eab08294ac75a2 0xb0080e3f042966a17682916ebe633f36ece0fb79a26674dfe18acbb5f387555077f8d5035f0b47f99de22b4b634b706;
  cs false 0x1053f4341f94bc979531058f3e846004373febe5086daee8bef12df0929319b28efbc43103401119975794f90eca81f8 0xb961806b225ccc50b8dd61c695fcc32270396f0bb20b5e0a1913693a8179fc411664b23729b80b3076b0ee71200a938 0xda870e703bf98ac4dec916f91ba9dadf36f841795a20b32cbb6c550105e36b23a632a00a71b1102958ac67d4ff6398 0x14383eef3db9c8695deacc3732190405425ec45877bd4b500c99af237371bfb2ef5878b8ae0918b5f54370512f93ec26 0xc869517ffcdd15cda63541c17ab7ecb40616d0b042f08ddc5e6d4e33f53fc79622f48785f2b87defe44fa70058f67a9 0xf914858ab7cc703ce60d27149e745983ddf6a2f711970339d298a05372f86648fb483e7ea6ce6c25bad2e78fa572fac;
  cs false 0x15f05c07a8a1bea996070ed9fc47bf56b732fad9043a3e0dc46d1e497e6837b4ec730a82eae8d167e23b7941b7285cab 0x146254fa2905e0c3819670ed63d2f2f18880b5a20cf32c4a7ec847d7401062d40bae28701af6a98653bb1e454f74ff09 0x6b684ce26818c91d3d9417741a4bf6a57d832ec9b69ca785a8c34a9e4f89c514227c593610817bc1486d2648e69a83f 0x4831f2a58f2f1c4504240ac66e4bdbeec10ac025f73b4b4316d6042e2d12cc74f896247d800bc5b620205353db316a2 0xf7ac7ffb9e98e8310265d974c0f1e917483418b550d32ff9e4024da35448c2d23bbeb1131e337fd1baf825446b30645 0x113c3fd0cac4a4ba6ed7a01a87bb387b652fbd13816977569a296510b42f8d372917a89228a4688b5760027364295687;
  cs false 0x119e06755b5f34a31bce2688f973d4001540a8cb41b93442dbf1d628e4c4cb66a4b13d7f270c73fe9703010b52a43e68 0x10bb6d4dcd51ae79b8152d41b48ebfe8abf5af068043e0b9b0ed8742302cb8f3a2033c2aefa7363c03d07659d0a7b9b6 0x12415ccad12b2e5e60c504c72f28fac685e238c5e41b0af16c759370f91538b56ff693c890b3cfe11b0a80294f9fd547 0xac4e84f156c55aec0aaea24d9fa9aa91f6faa060cb43f728a70cd62c22eadb96cadee55df233c2ccc304f97d7f95cad 0x57dfdb43f6c4c5d8b4f3a5f644137322cbdb73747041bbe381746970b1a92df04f01ac609f78b4cc21895be82050dfe 0x251cc92a0b24a98fe8afbe94db4b19fb1153b7ca51b24ec70c26aa575e12f2e81a3a5396247c7ff158d2ec67672d08c;
  cs false 0x12ff99af38032abdba18be53f0481cfbfcd852d3a480cd6e18a801ace515f4e8a74290d43c4750080830d29fda96332f 0xd182da94df3d00014fbb9c0c6402b77c4e67e32bc0c1183d880fedb9ffddac531fd92493488bd9a34c393f35e0cf2aa 0x5f117392543accc73f417006d0a2425230f56a87a4b15885d08115f97bc635846d4bb7ac5cc26194b3ac88018eb0470 0x5ac1711986c05cec07de83c565ac8d45595e0014046dfadad7cc1e25d57f4925797ef729e2fe45f6c7d3768c71fe582 0x1722e27ad71690d2f80c3d1acaa97f22c38df924edbb7ecffcf3712777de1dfa91aa0ad36d4a529f42eaeb32115f71f 0x101c82bf0b6972cd4cf4629456196729e21506116d70fa10c711244f4004b51cf065689a1185b4a98dbd380c9a563bca;
  cs false 0x684840f11dc557fed672d3b351774ac137b1b0cafd8cce1e272cfe1ff5df7e00fee1db412ccf7966765c4828f0a5d3 0x1a4b7a17226660eee9f0710adb5b470fb3fa9afe9f587c709fb59a562fa6b1e8cc705b070c2600179bb0bdeb6fbc8bf 0xc5abb7a42733a80461c7e9467194de5036392062310b33cb9311fb06dba39a599571b74c487d6e23b26b5dd62b27ef0 0x8815d695afb2912de62ec165d758372a1c4d2c8376eda41518b57d5184b29f702684734655150869d3459883e681315 0x7ff5cbe2679c796bfba7f3ed2e8a45bfc8b8a4c94be01ad1f20cac09475dd11001986db5fde5630ede915a6051897ba 0x4a2f9cb223cd0653bbf0b5a7870012f884c5a4884a86359dc9f800381c09a654567c7a269ae21b6623843753654a61b;
  cs false 0x9c1fb1761c8865389940d53fb544348980618320dc57c7a2020b7e7f9521bb5e0ead2390e2a9827901a39e477a847ca 0xe6f14e3da0a4d05e1ea1303dab4225ae56c0917b45c8cf1fe44668503c39999533cfaeddbf791b98e58e9a7dc11fe70 0x8a5ce26fa0a8ff01587e0c7e6f5bf249ecaa74a5b2697ae3835825833c3db90fd366037f53aa05ac5bf784e52f51861 0x703cd2f534be799c910d99179cc45aa198e99291a31b5d96cbf58f62a7372eadb216cd06a085f30997af5c256c91229 0x178aa7fd924ea631bfddb4096212c5dc8a33b1f56e76dc0e81f0c2535291f2fa9232118b4cf3c2551cfd463ca150b240 0xa107a833addc87001ad82315e6c334bfee41a194225daf32b93abfe08323ca6c32f9eb8767cb2ada2f80fef45bf2473;
  cs false 0x147b45b33ca80067a83f90b4437d4cb1ea2ff3d44b5954240b0c91ad2f0df1f87cc0de24bbba5a309ba35e43a8f35086 0x549d451b8858203a5c6c65098f4bbdbef0bcd7c62ae37680803671d77e427ef419181b5e3ef252e7e5d4bc94b4a70b9 0xc7412fedbe2d79bc3999f84c3cf8900c59ab4fe0078aae127bc9b27aa2024233e15464ecc8c682e36e10aa68da0d2f0 0x10666a81ec718b87e234ee5ceb613cfef4aedbb96acd24f47d3f96d9e50ff8178007a9e05f3156d857c308055e7115f4 0x735efcd6c7e12a67e0e5e8728b41c9730fb63c1837aacb003a74feed3703d2ca2898b677c568a9dd2888a9446f10511 0xabae69c537ca0d02f00aef53d701c7bea9725aff640e6418c2b627cfa095247879edf6af0557e6f63b21750fbd10ca4;
  cs false 0x4cad825483239932ee4d9879cc09b09efecc379d4e221fbc73b60f43afff751b5f302f01c7aada3dad23a95715b4bca 0x9e6764e8bb04b372640f2b8be6b63d88fb71d24c8b658b7d41535c6551a47c255e52b43b0b21fef4ba18a1a38df4604 0x2150d0deb9ef7870ffd416a083740737f2cf2c2734f4a5956d634b4f7fad51db652b5d24f456c15a2aedf1a1a0e9803 0xd68fd5dfa5934d5d3fbe21323fbd6fce872405b800176167ab1bad9658aa41da202859d5f71f02ce14b7d1f0d8ef5f 0x701b1165eb9c332446defca9a327e59eae3737b449027f67202f96b80c9c651405add2a202c273f84478397dd785a5b 0xd340e7c03a3c43940456e681b567327f886af18445e911462674be86a1df28e57b09589f4d2fa716846d081fc133e41;
  cs false 0x1989ab0146a76b97ceb66c7077f9c9259fb55303c45f156a52288357ee54f8e32c7a4644708f2b19e19345d39e0dc548 0x18d8ee40d8b0ec88cbc95a1268434b865debdd80dc844d28ffd5cc63e39aaaff535253bd56a0c6ada57f11fa13e79193 0x15e1891cf495a3e6b154a635db67dc1900a33e8a18fe2834c954e13bf23f914180c7a271c69764303f035cdba34ca0d1 0x1227854826dccfe4d7492d2352ddb378a1354953e38483a821bceee00a9c200bffc6c256f1f3de6b7b2dbdcb4367024f 0x12d20a6d64bc5866d87471cb4a0834516c189983b0d4f3c5ea91e580fcccfea4684201bfe50eb62b77db6c9fbc9be050 0x43801959929461942e0e7162104034cc7ab37220047b6ca90a1435dbf6f5c7d9d23cd1e0e8ee8c5bc91ecfa0f7b0888;
  cs false 0x175f39ddf56891d41287997ba2fdc6bbd6b9fc925bef89978db876108c1020b805379b1570e7d5a6e2e4b709c1e6174 0x40494e8f0a024904b9e118a975c722f99df656c8a1f9c15073ae4fd658bb055eabf612cd05de7c28c2a017b697b4908 0x8103411f89938105e8e7f22dac2f752601e407bfe32b446e678a9f7d6e96e02c938981bc7741fee00488c0e545040bc 0x3df104a49a7d7a563ed21193bae91efabfa91fd105b55a46a79816d1ad0e65e6e1e2009d8e5f3d852e06bc920e583a6 0x18cedcd13b3b6e2612c01d25a1776daac4b189489253aed1e613701980c90060a57d1fcee9c31a59faf98b6973a320a8 0x6554fb12201fe5f20279f89966c2039caf2dcf794e0905cd56c200127d69802065d02f18f1f94571f7f40154affbca2;
  cs false 0x1986da751348594bb64604b1bc6e25b14a14f62b877fde9c4aa86933e8a4f030a6c5a1e0d7d04ef511af105fe38ac887 0x33b0489bea6c1c295f7670c18c86324a1dfb94d6e7a6dfdc3e7d4e9a9730080f6db81250cd8de7cd57d0d71ee4b296 0x180a1b2a9e20388f214e99aabe9b006b205bf6342dfa15f062d3822061df27491f8badc43445c96038a02b1b0c68e84e 0x208402f5dacb319e86de0a6c4ff92d0c974c80ab6b219696739ec75563e538e35ed6230ab4a08e5540e0364269d212e 0x115f3380ae886aac4e4b53856799eaadb34946650a30b5449ef1c9ba797a853a8c78f13f5ce60bcd47ec8eca8e813f01 0x236e4bb8045d953fa099813bf64796a29c88656cab9b252a0248e04c10e855223f7aba2c5e9732b2925638b953b2edd;
  cs true 0x5cc99fc20c55751890d9b301649193575b6d841378efce224e237f5fe80f7807b8e53dcbef874cfdc3f66e2f8cab646 0xa6cade5498941b3f374def5b57c55770149e1ead8811d9c362e046f733c26524eb511868b595074a8d4b3be82b43b89 0x18264af4eb6efc5628d6b519cda29b809b43afc463174906bcb6e9320e51368640483b06253618f80033fc1a92a315db 0x197501b09b22035e368e5f55c4d571b5721bcf9cf9c53cfc7c8588a15ecbaab26b64cfe47d04b7a684d92a562149eaa 0x2b7d450900870718081a7db0bddb04ccf934c9d9a074a5b7cb93fdddc9e028813df8745ef1ee33fb94876bd407c544a 0x1354f07b5e2afd5e4b0d1d80308c3c45ea114a7514718ef88bb11acd5d3d52438d8371b05408dc584cd3f9ee18ecffaf;
  cs false 0x19fff184dabba3e0d8037a6c28a9105ab057d89ecf797151b7b3404edb19e13e00b3ff2c81bfe830b01c2752fc57cfd4 0x14357cd15cec1d7983de7df4684096153a86beef3084e0489ee8699ec206a6c9024f237f55ad1685948462078bbb6495 0x3adaf0533eec74c84bc23f340c584b919728510732ff325ae58d519c09e203658dc60a2fd3076e801bcfd70fb6a2be4 0x10b5a20d64e64e77a95bd771197672a31e0f1962eb6f04fa207ee6f26ad946abfdd9c71f5488d861786339a5e15360d 0x10bf54a838b5996c61122b14b0facfec8a6c5d22a9eaf0c609c722cb38b8c219e191019cab5e826c50acf39eb1ff9cf4 0x96026c311d97899356e477adb97c70944e043a5aaa578a592ad5958f180a69196d1d47cf2f120cbec9c88fd6b7a2678;
  cs false 0x94650c4279fb06244889760b3bb5158f01180acd28f122d74f981c4aa45ebafdc472c54d29fdaf95e189324ed76a2b3 0x6b57aa657f4e449dfdc5692f1c7c56fc31a3306e5c3f311cbf71c9c4db12cc3d28fde6cbbaf3b5b0d63e6c447e86d39 0x294249a89d420f47ab8b5603a6fa6f21a4360e28c4f9b46d216ef5dfb894d9b4a442800ed40e56b8be53ec589e33954 0x1877641749ed6969f7478c2c4d38bad72a3d05fca9ccc13d89388107f0e47e9c4814945850ae8baccd8d88b4f6b8b60a 0x97622f13a370d8eed11c4d404df84e23e2cc40f06df0e974227b646a602b7a50e3ebafcbb147e19cf9cf6bd5bff8424 0x7854c987931f514dadb45750f3156be94c7c13d63fe64963b05f5d91c5eae51dd3b7636fc091088e558caa260a82ad5;
  cs false 0x11bb2330dc18d0d19edb517905a72d3732de615e58fe4067671eb806af818944dc32bb00b330d109287c156305677e1c 0xb8d85c99a95e5aaa3578333becda7bd810d4c1922aabfa21ef3ac358a5513be91584c8fd1a4d360835fcd608eff5771 0x86882f1b1eb679629e8faee2fa072f7719e46f4188387131e2c1c91fd389d0e0c87e239dd792b27357a2e7e2a4c0c2c 0xc2e4c16adcc7e52913e91b672448ca91bd414e17dfdec95659aa2452e02f0c4d014a5900889b5c5b6dc419e185b45ca 0x799516d87d05c0ab2caa9010b328b15e8427f5e2880f6f30cd00125dc6f0496c85c896cfea97107652a30b34a3d02df 0xaf54ca2f993b9b67541060a570337628342da5300db9f891e7bbdfea2fb3cab08b85a135fafc45ab3acf12312f8890c;
  cs false 0x1716ea1230fa6234c74a1d638fdc77f03247adbcf50128881b35fe5bf2d7d6bd28b5b2b350e230226ca2d385c4e446d6 0x16e8ef0bd676597da912724048a0c73594355a1546774d678ac4529d66ea1829818ff52670dfbe56f24f1d15f77bba40 0x9a487c65649c3f7542d776469fc14bf5aa7815c387b50c92d7a506855fa1da94d257967c04a3386af4c6e6955a9c524 0x17e8de3b950c0dbb583990d8912b2b7441d0133c433fd4a01e6c8572381702c0810569ddc02a247329998fc767490a85 0x3c5c2b2ab3840e998885cb14cdcae5caa12543e023f6be931e7fc1ef1f69a2ba59e124d34f353b85666c5590d798737 0x49b64bb9c736db4af801df226513618128229df679da54eb23ef8762345c0b2db4ba7c0def7305af8bafefa9f51d065;
  cs false 0xb0731317ec77b17ffaf572a9caff61f3322a3ee53ecde75f33997836cd68bace66a4bcd4bc64a9c11cb95d7056ea18a 0x16a4d0012d5a05f4c1bc8cac3ed8bea9feec5c5a35d6a16694cae0befe6b57d8504bd2736c442fe0fc167a4e45034037 0x13b40f7beded7014ea94c13994e02eeb4a425a23c58fd90a4934b8d243c5195c17e8db7e2288e4c23492cbe972780f0a 0x9f2a54f70efcb9d5b81fa335e5d38b4fd0af00d8c154029bbac2ccafc14093fef4e972aa9ec6f37c2af1eae0b6da85b 0xbfcb819c80bdd1b8c4d92261a614a81b7b8bad40566ad557269336c274c1392a0f99952ccb26b50e5e024dc5fc1a073 0xb64f1ea86fb1dde3b8e17bc2ddcf8f6e742612fb6fd7d897298fd9464f8a80ca6a671677f9e85d2207bd2ef64aeb614;
  cs false 0x1872bef4cbefc6b8b02343c31587933842d4cfb1db159381adb30ed186b11a51a172db2b9182520d0db958553e34f5a7 0x11333ec20ed642d9c2c28df52c85b2f19f489846627806662e1b82056179a62c4809c2d42a460d2265606a6159103214 0x1878086d116f94f9265d2bef756b236c16d95b42fcbdbdc15c6678ca1a60499cf548819cbfd1bdbe4bbbd4caa4c2f5f2 0x165ade99730b4dbe325a7f76d9446996239468c1397e7afc3d7b138c0b1c6e8fd02f160abca375411fe36b32b4796d00 0x14ec929a723070b506a61158e551ead66b4da15304ce49c656dc1e5bc8b59ea970d9a0c4203e150ecd47b49637d6104c 0xcbde668f4d0bfa2ff8d17d9c02b658166fe84dbbd7cf8a4d22ef8a0cecddd3588cfdf249f3d9cbf7e8d86193df06d57;
  cs false 0x1464dfaeccd7e6a7c87c16ace2afc90487f165fbd85d6ff535752b7cadd4b3a9253e818344011676b304aa50454d8f1e 0x11fc827f1c9ef506c4515c05d6add9197b86cefa1035eed38e2ff55728045fd6be4e5fb20da5fdf48136f2d33f0277d5 0x15c67cf24c6083bf59662b521560c675e129f577d22a4faf74830807f09d72ed5d0ad99b0cc7d7179fa0c573428366a4 0x16e0aa22bef6dacd4634098bb3bc018a226bf0093e3bdd63c05c5257710ed0cfed1c848ad964712d6490bc1173d50152 0x176066205ddb761ccf35591b9d8ccf11dced51eea73db740ce0d815f916f6f02cf487548a94367eaf467dd63a80fd7f9 0xe9ba04814bdfffe061cabcd6019d0390bfb9532faae3ca4a005967e57afddd56a0035872cd53672b3cd4f86e2cb270e;
  cs false 0x146e2c11f46aa1eca8468c646fdc9e4f547beb10777159b5ea19b61f579705da7cfdffcc133487065d5a486f0e2fb72d 0x121427aab5cba6c3b2e986f90f0628d953225f83551f09971f74541e0316aded58cb4bd0f136159ce931fe100787547c 0x1185b603ec2a1acca138cd238c7315c6153040b2ed65cc867ff68b2c1ceb9d9cf5c3ff5e74e2c84a985198995fdaf76a 0xa5b37282d500f146fab050f0b64b64a623c0c6610c424b9d60719a678057a3b28b7fc7a2a7d2e389664226c90de1aa7 0x11d1e98adcaefb7e84f6b3fc50e78e277a02847b0c8fd991d50b0c4601d58bad829067a1757939c89c600175c21cd3a0 0xf765a30b6a71e4ba1ee409619ddddf897bb831a74ad4930a79942fb4dbd09bd84aded480190985e1c90a76aaffeee43;
  cs false 0x105446dab3c0046226e835ba5641bcbcc85f31a6e4e53335ca0c91694952113203950d17f51ec0f67e171e5a6d463e68 0xf07cf9571d54e1d8ba4826bf5159c556739d31a0d73da94adf37f47a0e847448a97bb7a9fee5a61104acc7a6a1ac91d 0x163b602fd6730f0d2218707da9f030784f44ef26e8c189de638df950748181b944812194f8b4bce2b4794c73f1d856e 0x1901fa6678f7750cd4ffb168276a157c132aded9ac6737934da0170ff42bbf16764e84221195bb1255eaaf4d8b6ead8f 0x172e66d4539a5ffdf6738b5db02debabe1fa0d7a126b29bfbca24542eb7510346fdf0d6f619b52cea69f0bebe61b012e 0x18f0d450bd206668e31fd4d6a8930f76d171cbb51327f038b7517c42e54d8d15befbbab1dcb932c2771fcdb554e6828d;
  cs false 0x147d91d3ff23d8832d5926da416b5c4aec514992575c381631f48d74c976df4b40d878af5c40c28d5f90eea819d39e4c 0x11b4e0467aee53d145666d1bb011182968dcc43938945848e9bae18ec6dd7292be0873c623c5f4856b000f9e1fcbadc9 0xbcac9e86f8b03b3cb4797eeb9e28554c8857e110a98be2fd8f76119d857d8bce5e10826c1105fd2bc169766dc90560e 0x135738cb9069286a2289f2d8cc57464ee06adf206716331dbeb12be07dab85110876fa25dfe68f7518ea1a866da45710 0xe55d49930d9b84584d44894abe0e92ea8143d869d468256581ccc25fa468ac7db45356aed5d36d79dd8627fffab353d 0x9c879b679c895d53f2ab9f8b4a97448f76ac135da65c6bf4dcd373c8422011c45fa118aaeac5a2c53373fdccb57bd7a;
  cs false 0x651f0f3c57eba04c5ca649ad345d21a0e4fdfd4ed2fddc48087515470ffeaae654f9f3fd24e01ccc409e8dc8ffea5e 0xbe32e3d5d84412e207d3e8bb134d6ad79aa8232c078dec786452d3afb621e86fe38cd4105b6427c6f2f456dccc95f84 0x16dd05f00f07d6a69b092f70eb35410d03782927852670168211f36198589af9db634602a8a1eeff272871c44bf902c7 0x15a076f04bc51cbb20b85e2b6b55d6726a2ab1a793aaa96d9584f94bd51a64de774da929a336f68aeed23c76b573c0fe 0x10b42ca23a860d3051cbe4a21a19aa0cfec660e9da8fa8a9c17b146ad6cfe3e86ba2cb568e4a33a6abc64524b1bd0641 0x227ab2571264288be7af42e6e7c41dc6f718a71a0fb5ab1e06429a78c39496f9780d10e49b675ca0d413333c4567f7;
  cs false 0x738317bd88dedca23bb9ef0a4b493a256d6706bed6d00c3fe7dfd7d223416d77767909e584c11be4837d1c913e663e4 0xdddef399a1f5a72503ceea495ba48c6804e53edd7b44bc5fd601d1b960c044b026d49a2ac427a114f45dd8992a293fb 0xda16ae09f932f52acf7d9cdf803e2284dae0f22332302dc9ecf286cc8cb603da4a5249c68902040ce7c0d58585da153 0x12ffe5e3c4785cac57d05e8b44f6a1e49ab6bf51a658dc9b53aba66667e84a716188fbd9a6a80b7ae32e8ab8e4b0223a 0xd74eea49ec0a8e257104068adb210dbbdc8da0ad5aa3c98db61efecef043e56746ed3cd9c8af3a0f7e6774bac7bc983 0x8161e263af2d692d24b5afff875f18f5363c622487f8c0fcb5bfdca4f78f5d50822d4cddc6a91edbcbd984c20816409;
  cs false 0x1809ba74a160fba89cc269f4b6a68d2f45ac6788dddd670585abb0b9078681820cb2275ccbce4ea2dd8dbab6aaf7e8a1 0x135d934f2d1b4e76dc48c3ba20336d4a8cde6467c6a9c2406f944a36ebe6540f05603e939cd760c65251486a274ae550 0x17165538c5b3298bc228f15ee20f74a54dc987f6d873e11a9dbaf48368c95f2a80aeb22c7abee3ff91964371a64d82e1 0x2b7928e1c940b7238d9bb98d0a78b45861f117d1ca37758af9c5250ddaf6539f9895c6592a8c1e63f4a13c6eeea221e 0x18e690ac6fed63daf4be2c7144af6f3d0ec5dd4ba1176c1a3943f2720a9a8eb8dee6402e2aaab9d8f3a445a3707bf4e6 0x3b244ac532b5d852d4e7813fcf531bc1a323a4b23ade1b595d49f3a656a0c5c47a57c0074ba27c1bb27dfa557a00fad;
  cs false 0xf9b28bc6c41e1d3fb067bbff7644d85641e30517db19a9a87256d3ecf87ad06093392f634c44c5748b1c21980107e5f 0x1c33db3e0a84e2ff1c2a5aa68d585c43765980bb9450d87e84e7a63222efa6e7ee00bc29d66bc2168bb7d87f90fe79b 0x1585358338814702f81b5ba8ae64407a41d745cac7ea110714abc1bfa6a92403a73c709855c9f709c9a5d3949cf33ce0 0x18b4186a17214019f7d3b65ad78ffc7b5efd7d8913f3c00da70577755fea3b3fadf58c154d9472bdb6416ef1c598f34 0x10337cd9b547bb196678789907699005ac9d8deed6aa7c1d2dd1b2b9c7675aa14cf30bc0c2ce0c65eb4e4552bbfcf0a5 0xd49e96cb85dc3bf2e82f7523dc5a461eec51c65b8bc5d62225ed30eaee1e8dc4bd77dcdc7a0b4061f623f9781977a;
  cs false 0x10c05023c2fe8c99832376ca375e8b5719f9816a8d28a01813fe9196ea79fadc34dfd8cdd6d616ad681d32af79a85e73 0xdc280da862176042a984c79c18eb210d15c030b5c19f695af31c524a63d77082a660318c701e301ef13c282c5cc06c6 0x43d2d462442a4e83428f4841dd4302b6780341cc82ed73dd9a4276902053c09c33c0f54b45be448de3cfe539e4c24d3 0x15fd9cbec32681af70460089f0186eb072d3540221140726e3c49fb0bbe429a30ec0c8204b62dda4cfffd5dcecf39092 0x5a0acbb2e9c60f436a231d7b44c5cd7ee868fa06bb90fda21e8bc8505ce6c786755dfe2d9eafeda07a4bf3d639c4cca 0x3b6fd3b3e3d3adb82dcca3d724520b908888b8f9594e023fc74b0631f77e8b54eedccdbe39d0c6915dd8eb87475060;
  cs false 0xbc45db6d991e1e37ec2586bf50508b7693a57c6fa9d23dc44ab8bc380c3611f2042eb25a0a81149462506bc0dbaee9c 0xd023406941e36e2fed29d8296f8fccb894ec68fa354233f85da0a1ed2c9c469bebce529bad4dc03b3ab2538a4caf01b 0xb21dbedffb84f92e9fa03ef02b5fb1cdfcd8aad4342f5a03b78f5f1eb781b868ca1f9e9dde8e922524bdf80045c81c8 0x11c22822fb7509e7f40ff311191ccc97faa8c360c85820c1bc48e973600aefee105830c9afb549e0758d5ebbd4e71ace 0x14ce1411ca2f74f36ba1fc98a662aa55b8ad6470e1d35d0e8e712952deca2f5afbbf89be3bd40b51f0ff37e7e9d77276 0x15a59a306274d171bc31f6091a0c17656c001fb24801c581f8a41e93e0114712e185b710b14f408e5758470a1117230;
  cs false 0x14cad49b70c3bc2e5b0479dfdc6e838fc61691d9b22d4c27468a143993161e5cdde6e2eeecda3f26f41a2b802934c335 0x450e969b01647df71f894bde058f279506dbd094b1d2f10b8f970d31d41ac04144975d6066e309c997a4d603291684e 0x10e6bb35784be197df5e94c09713e0728853ba70e3bcb882337913841ed42ba64a8ea4372c1eafa47b561120e55f558b 0x9bd22e34712b217e3783c788b61db7a374ec4f444dad28b70470f9d5631f91d463df8083a311606634913dd18234367 0x103e551d2d8f654d1be243822cbd27924b0e818424d1c31dbf773f6607a679eb108b6bb4e0127ea0ac28a923c94effc9 0x35db6c94b726b07c7ffb6e2224ca1a3fb7027ed11d34faa925e1371163ff22369147a9f59f7aa0133ab681d073888c6;
  cs true 0x8af3bdd2753f0ab1a62ee710930cf44b0c001746c22b27f4bb2f068b2abfd69cb0522ff87d55b79f88bd230366ee533 0x4efc2972f5249244d85477e5a7fa0ccfa51b40e531ed9a1c7e06340ded93d9b49871d53fbc79479af2ad2c088defd2c 0x314628bcb48b126c9a9cad0f37caba927d7ef2ad5ea4afad8685c5d1d7ddf1cc2095d434673005163e7aeff7cb27901 0x151bdfa78a61f0c127c716784d3730612a21d03fc9c9686688ee725ca878661fd24426eed2c81f67b0c23cc7c1949ead 0x26e32c8495b70017a037b98ebdfeb1517275bfc646cf1940c2b531733c93470d9845cc380028365d472a6c9dbf15a80 0x190d9bb831ea7e9e8ddf6c2db1f3d5f8a6040a9c091556ce880c1f5f8de1d473a37c3d22ffeb4f78c76e94b5c6ab0d75;
  cs false 0x3bb62329f2cf84b80ec8c3db5216fb3e72dd12d0ce617d0da7e809eeeb7e88f6bf75bafa05ed9eb360c7793b6fb1afa 0x184d5798e4d115f1f7998b4aa88bcce84669f84e13b23d26b43ab2f1eeef3e506aa458c6788d68d18d3e6638efb8d99e 0x882151d2f17679629462087f831c7f69fd37463b189c8df17bccd8faca5c7c0affe21b93685eade264eb54c95f0ee46 0x19d4d1f0ea72fa18982550b3e214832a12a55bd4539175431f3a7aa87d80560fa58a2deb3bbcff5264d5df0d4f10ab48 0x16882ea24d11b38ec024462a8198195ea020dd7e98ed92adbf093ce391a7e9073aab28b6c5b35b916d8d3449ed4275b5 0x342aef3672b3721706a756a14879adffabed687e17adc7a62a4f6c47da88ede013c2214be09174287d2575cfdaacc2a;
  cs true 0xf42a3f42ec3226382e01315c56fd28d2718e13459db451a5b43acc45287ce36c80daac58ab9b7f8235383ec8adce9b5 0x1599553654b2599c50142af5c2644b5f55c3559cee9ed90b50f346b1cb0f5470b92718f325a80a0e6c01bbaa0e2b567 0x10c723e0cf2511df4cd0c1879f3972063a0bb5c9ed7a1f42cdc781b063501a793d76250395d6877e0f39934ac1743a5e 0x19121402c63de1345cfc18e3a20ee12ad53ce3476097b3036bf924a5af1fa1bc1e95977b52e9a2405f4d620601d4b96b 0x111d18f2be613613dc8c73dd32f9ee03aaa6a424feddbd4224b05e804a3af73ecdee17c1b347ca814b5132ad54b2c011 0x19bd82939b8ebd14fddbb0ff972719429e5cb93a2fbb8e9fddfc382dcc5fbe2fecdd96bdaad66d03a63db9a69daf9227;
  cs false 0x190047267c0d93a6171cbdc9f5624222d3fa3088202a544a6b2d0d5039d237fe57779fe72d6198fcf6baff7babc406b1 0xc9ae4e51ac9da420d4a164a716148b4a23ee2960bc091815825be4cb4e3a553c7b581682e591492968eae90b9a1fafc 0x13ed242adc874420bd54e2a7d0fd4e9cb83ac68bc578addb1f5bfea80a2be62aaf22c56b0d014d449a0fa1dad93e56c9 0xbe1e55e9f853adfb85d04be8e5d2acf8d85e00bec27e82d5dfd1701c408df8225f94fe3693b61b6e8b71053ca16d052 0xce2614e5aaf25e5cdf5f79e176de9a7990eb015a47305dd10e943b4ba53e26adda8b639c28e52b074dac29a7aed6c61 0x14c47ba0c756b3e4cb10eed9acef927d9a463457dedeef4db79467ae6e62500fea1c0c7491e1aa843c3177b6488118a0;
  cs true 0x1820e39897021b3f685f8477b596c68f2f131c494e958c29f8c4c94f89e9d66c40050761b4126272cf69cdcb551c021 0x8ca6abb5e48e18062f3af1bc5193020726c9aa6552efde8836550c35947cf4875abb6a4530bbbc45c996b3789a762f1 0x72c1571c080777c5bcd329ca22c3c58af2b03392af6f7916862a7e9d3b48068de56baa9a77b711253af2775819146b6 0x3262c45fceb9a963c2527c79d3ac137b5a295700219e9e1339d883b02459a5e0413e3c40494bc0259a00ccd525bee03 0xbaac85fa683f0a135cf1a8f86d44086b1f7d9cd10fbd00e4a0ecd87925b301dd84c44a5800c9e60cd59aacacda079fc 0xde42dcde05bae01b1cdd4d12c78e655e8726b788be1bfb3bd22a2456e78907b677bce9c5b831aeaeeea818da86f9109;
  cs false 0x756a6fdb4d87e51ddbabe011b228b772afb46decb0119a4a01b6711c642f31ace1caa0251fffd99b5de3b8c752a5a00 0x618730697c5d91dd2aea7037c119bf4ac0286693913c521d1eca9eaea40ba9e25357147da03d3281cbcfb8816521f2b 0xf5e0bba9c942258d40047e0414a2d325fabfacc2e1524f46b2fd2dcee44163efb8369e348b3fd38a41c42ad18825c28 0x23f5a385587fca6017af44c4edb9bf6160748cf41b44e984f59b0df249bb06ca10800375f007a5ef31c3e145cfd47c4 0x193ba1587f9be2c315c9642fe7e879361a9d312c3b66eb33e878280f05d2c127fefbeecf57926d123f50831203a76103 0x194fa0ba305f93f469846cf4ae1f1a3e255ec65469f3c36b6af4e58f2f9ea09aeadd70705abbce14d4ca27b5770c4d4;
  cs true 0x7583953bdb71e669fe12eb25a2578caac6bd96bf080ef8cb838a6c211a8eeb75b81656d819bf1799ef0bfebe79844c9 0x215e54eafabce708ab55abb82ab03600c7281180278c38017336a06179d66ef6744e2921e8ccfb3a79d946a277bbda6 0x30ed743b350242f4b7aa719d4b535a5c427e37f552e7798e73811f0f85475f89038e092f0fadae5b762c2af83e460cb 0x3521bd48601dbb8f21d9c7fc1e720dc98389467aa805f14e6d45bc0a902ca9f1e30438fea28e40d95b6cb4ea78503ce 0x21deff073a80468df9d0dd4b1c7286ffd79becbe10273274e8eb74a742551acf7a5ae6ec38152ea6ee8ff1c9280f80d 0xf212d9e0eb605daf00efd1e6b3fc5fdb1bbc96bd13a6672ead59e2baeffa8e558b3289143f0daf96e35662ba5b0c34a;
  cs false 0xf2b392808143be7332281c636a3774d2d31cef62dbc19434892bf3bc88276e38fefc90a731631095ec2eec25452ef74 0xb6207878d35d4d70ce39774fc0afe8acda9402996b94616e6e1ac1382def2a700897f5486178d80355f632e87db0a17 0x179f1b24837785b55f5f0df2f07063398534ec8008d01aa9ff417612e7492feed2a29557d43600fab25f6da64edfee32 0xabd8a19c4cc64598e8d74a63719f0c35a534c3682438b581533d7361fab487fc3b17686df3e53f12d09f5c31ae81219 0xcdf989547edef3c48966a60eddb904c2ca2631231aef2a96589176e13098756498c57744847b16cec35cdc7c710503 0x48886f8789de857a5d2f75009f3f801cb3226ad7af85e0e76c50bfaea12a299fa5c7ec9eea1293692f8401a71023c6e;
  cs true 0x56bed37301b187a71ab1ad2222ab79573e694741e2964e99c4270c7402b717f4bdb567b5363347d853ee93670a320d9 0x1233ff5bd44e3d446b8c0044a05439534478a1b9fd46b30b0d361bfdaa3ba0cd9e412197e096f3e8fec5fd32cffe2539 0x598949b57d80c3bd1044174dbb9e917c259b55b49b567601a2b6c174e5a7dcb50c6b118e1bb09821c4e1de922f9afbe 0x18b4788dadc8cad75f10d279137693c60d48ed411070325ed1549b5cabffc3390253f52891d1ea0da318e608d58d85dc 0x7b43e7542f4388e2f2deb62a0f947797ec857f5b1175ccee20059574593c9269201ec8c3b12280cf80b5fcf975347b6 0x11bfad47e6d936fba7aa3a6c749eca68cee8896945b337be818c32769054f181d05aec0eddb4bb8617b07ee1dd6e684c;
  cs false 0x17dc92ea8e0dfe724ab5eff484d8019f4ae9f6b3f0d44482b95fc9c400e80e41f71f9206ff31c70c6d93694e9734f83b 0x18af039da02d655e3984bfaf18a013e850a25ed2a163c30e2fd3aebef8062e67ab030100282e2b7883203900953b7d25 0x12cf7077da51293a449fb5b7e3478d36a55804cfcb49739548255e0502d731350a1d7d138215929fe71af6345ba2eadd 0x9c48347fab4d1a65b2b30ca9cbfd631c2d245eef6b2117e2fffaf0505d2c97e61e8f2e9ebd1d599a30bdda399630bfc 0x14fbc44560f5063d8b93ba4689db41d8313c54f3ff5cea2ce0f8b9b57e3d85a9db7ea83f5df3ff22f583ef05390435bf 0x1982d0dfc09101b9e28a48f205db1bea17fad77cde61ef15da948c1d5005477ef822b4bff3e7bff583a18ab4d234281a;
  cs true 0x203d7d9064d4ba77e6f8470c029a35524801ff3b71cafd149adf4be6a691daec8f048bf2cd657d40655eca8e75ed00f 0x113e21613205b49a519a1f3f7e971efaffb46cd36354ee74557282c5b7e95d522726a914f4d5c897a82495e898de5e40 0xa044bdd65d554dc33868a624d784664fb54dc646aa22c70882226b932cfc0dafc61bfe00120b9932535c429f0fb3ff1 0xc22baf6cbfe6b242e7b254fdbcca06e8b16d1358d95f8d562ad9aa68cbeb4cf49369e1c2154be5aa0d4fc0b1360edde 0x73e4a09b49387852053fe066b44c312ac7d0b0b7a104b7fbbef6a89b44ceb48eb99efa4af751864c70b1e1424c86d19 0xe8dcc2dc7e20a2a947c35d92fdc936ab9019e2f80117ac97e300cc31a8715da90625f5c05fe938099c7043d5b0e759a;
  cs false 0x109bb7a908d623f8aff3db4eb97e662ac2ae8cff96f58cb5c665f0922167fc0ba0b04722dabb35d5ed0571d6aee482ad 0xb7982f98123cf49261245f9bb2fcb4d9b9ed0336df8e86fdd90d5c28629e5178758ffee4c54398ba26ba7a9ee7111c7 0xff3adb46034d1b70909c8f3fb22dc7a77dbd0061017d765b8dcbc0b1d9a76bb7dc95cafee7060af78bf3602e9b0d2fb 0x1978564650f33fc61d4109eb28e557125d63905be027c092ce135930875677180c8b60a5018e086752eee59ab88ff284 0xd8c2dea414f9d20818534b511619c3b25b4e889341bd84a63e945fe6a24c2e13b2445768594add81b76b628226c3334 0x1137d6b9cde508a1214a762a3083714b43a6f49a23b63a95a88f88df694e05e981f102e2026c1e75f604c8762a1a28e0;
  cs true 0x87b181008a4eb034772347b8434896362d38227ff8ffb5b445fc8860d32297b8e6780f3dbf9a40e80b6522fe320fddc 0x18d2d39d2952fceb3e64051cb678ac2b6bfb404329edc7a9c47d229537417d14f64fb9a4b65d1a500350d301587aa8fd 0xf675684e8e0f54fc334c36e0a96b55743a2f72a18db5ad412d3dad86c10c67d11996fa24f7e59cb822e3e8081cfc98e 0x14d91b8015cd02ead85e869f58471a7767b2427eccdecfacb2a9d611a0c89f0edfc583c705b7f238e497d9098a08d467 0x16f0f1793a484737f044a35f4b45a5b1ca96ba769c241975cda4c2c12ca18d64ede50b23b4395ea6c76c40c5ff833e28 0x420a97e42d3b60d4442ebed23da9b97fbcbbd1d22ff5aa805c12db011ffc2963631b0e6c9faaa65b6c4d9175c7602be;
  cs false 0xce085ffcb0bf05ea84db9d7ea9e2e73b7ac1daa89cc26f2aa25e911985fd27e68246ce72da98bad37eb59f6e8e63a02 0x7d7e7005a4f635cbdf456c2a8220945cf7e967ab59553601c40117beb2dff88780b299f39edb01334784d348f22d2c6 0x5d58195c74523735f819fd1fd1a2581a356fd7bdcb04e7b00e7c05dcac4ca5e41bbf467645b93d995c31feca4751131 0xbcfb01fb552729178b9eae153139930c913fd1c3aa4328acd9b84b9738b6f6c9812564335a228ff1c61564b64b2a620 0x171a7517da66f62ffb24f11fbf6af7064b5eaa77be7b8a92f978b68df2caa4eb6af9ac6d27bcd39e7745f0720ff8c836 0x1357b888c9347d29d78da4fa2807ce98d5b5e5d6fc82e5188e7b9d0afd6a8626b51975d1da8fa87d14c20d0292eb54d5;
  cs true 0x16538f08f3a6957e04fc7d81b8b7e70f5e6dd63e9d4a7bb97f99fb56f28358cb60fdb13e5cd4ccf07cb236cce248b56e 0x129dacbb20e06b7b95ab48a31a5dd90058176f29837d1b9aad4436e679fca1784383ec4ce9562903c48e7a000a85156d 0x8e837e81522d5978def249256bb88d84e18c875a0fc46cb2c7075e0ac83dac250a91da4e9c198c52654229500101c35 0xc51e269e41208dc067f4e6f1e0edb198978ac324e693cbfc85fb7b91543d71ffe71095cc7425ccd28208a0cd6a513fe 0xf24c2c3391c77158e465adae00c32264dbb4233de1a1fbc5c32114f680339f03c949036deecbd3819bf9cb6644ce649 0x15898d42dab74da34043288ed5663da47a565eda007e4918763512a8d8aadad8dd40dc44128201dbf7b49021b93ec1f2;
  cs false 0xfb181255f6d89ac82a7791500e5f123993507d38a7064b80dbe2e3739897e08643d4d51d186bad44142df7357adb4bd 0xed8a7eb6e17be97babd36d4605de98ec28772be396db045c41046cd6e3f8902109c4b41fa7fd8f0c2ae7a9fe52644b1 0x3836f4d1d1e19d18720fcbb655d883379fe40b2094996960a015d6cbb6f5babe2fa61758135b660d06d53d1e4481c98 0x9cc7fcbb53828e48bdf50a26359da51e2a45f10c355b5d3a5ac386f7d9f683be4a3ac1feec52ac4abfa82639f61438d 0x787f371a5ea2ff00989f7e55432ff3ae6bd46842b300167699120a0270fd5c44ff0bce8eafdff381baeebff570ff290 0x46eb5f81a828cb8dd069bd092ea2ff2a1c4d8c4e6b13b89a3963f82b54c6773f9cceb3c4b923ad635380d55afe9e0d;
  cs true 0x9d651fb1cdc03e3c9381894cae5437c09b1acd32524ac5d7b3530bb4b723b62b09de2c20d1f1ad9b09b0a056034327f 0xa0176913c851eb959e481036347f708d54a0ba8193ddb94e22f3a7afabb93a0e9bcb8938d7d3580e06839e18ba72ecb 0x1942e058751b132da0acf7904b24e2399ece30a3cfb9b6df74ac681ddab86fe5b67c0bf17190c137d3a590cd8915c81a 0x61ecad24e3b7a37839c1de1a4a9b1cdb5e02c8637519cc5660cfaa33af87610305dc1b697a228f5e861dcd7feae7d7e 0x124e7b344149ede7740e1c774e004c4b6456e234d605589d47088c737710b27b9a77f1d7a2cd69e750d301261faec901 0x10af46fba1b536665dc941197cbd65d67a9d18139c6e389a9b907b891b7ff9d6b9cd22b95ecac3a2e69390a94e57abdd;
  cs false 0x6e1616d8b286b05403ed41b423107f5354158b1e80753bca03902be208e46091c9e2e7b7b05079641f9f537f1ed3bab 0xe877434cae39862c1925763d3b9343c4c56423d4036148ef5cc41f2e267cfc91c6c85d6b7dd25eb1be72c1f2c38560f 0x128fd151bedc7ba9bb0d0b1bd83561205266fd50ca64464a3cbfa80dc3f8a1c6a4110c9a350baa9e3b6c4d3c46502b3f 0x6d6fbbd53a046837e57b21596608457dcdd5ec8929dd4fd4db1809bf91e8835385b394d540318c3b7ee486ffe3f89df 0xa4edd54ab2833a6e37f55b8abce51eaf17c51ccb67545125c6d1ea5368af98532cb21c83ae2fbbe41b0d73e243e077 0x658f518979f94fe85ca5f5f4fc8a31d81f1e134b37f385f3bc4053a36332f68c71051c676b0054cad3ea5a8f0babb5b;
  cs true 0x1723e831d5e29552c9cab0075be24203d3a56fdeeca89ca5b1376c348c87302cb9f929682fcfe2c4ecf5b85d9fce3dad 0xe28189b59c5747daca4adcec9d9fc4f0ed54d57301e854cbf13ff6eb3040cde6dc917dc27ce4405c83ec816db5536e1 0x13fc7ab27ffee3c4f27fa689d269aaaf5719d1882e327e940c0db0c33b561a3225f4c8a086bdd0804ec4b351d8de18dd 0x2454ebc29b1081341891c1261eb3c5c77def20b5680711208caa563438c3ec73bf7f2073bc88379d90c4347f6b33d91 0x71aef2b83b20c1094d5fdd421717a95a13202c5b7bd7b4bfff8571c412604534d5e7bd7a0d952c54f5d66ddb3372d28 0xf5e26a549bda7d8339735fb9447b83920060a4831d0fd445c61c860e95dbf096382801604eb2ec83b796af49d63b3a4;
  cs false 0x12d36dd8c8f3c7b3a204f8976c6df832ed4a75b97df1f8b50f58ceadbd2a2dbfe0657c30a0a8c6e3ba5ebded67b29647 0x52af463ff92986ae378431f5b0420f1e94c953355abfc95a05ac836e1bd3f0a09fb882acfa1b67803d95c54adc3c6b8 0xb2187453a346b2a9e2c7cb712ff6700117d1165af6b4521358b1d404c6ebba65d514e2866b2028cae65c41d3e112640 0x967363e120cbd351b0d737cd3ed48a45ff512b212c28e788da22136e50077913fe7b2104be3a9c2a7a341bcab9f232b 0x3fc0ea279e57490842900c46642af68c261bd20430fdda957e38099c9e76f79c5fb4bcd3fffd820c139686f66e3d0e9 0x14b33e8e4cc41415cdfecae4fee72878b5920300ea6b0b8c6352e8589a02868c982a388f6927134dfcc4dd863cea9dd;
  cs true 0x8e4e81e9b3a14e34bb8d05cc2c939f575a6c2496a6e4224d6cad2453efb539a0a97f268cf1b9c14086c2c60574a06c7 0x83ecfd3a85e1cb6f6ad443aedb3e6a4c138bf67166bbabc5a72daec895596792dc4f57b69e6ccbde864baf154a4bce3 0xdcdef469e40255bc43127aed4f68c76b2698b366a866b40fcaf45f41d98711a5897e643489174416dc927e50d1f0816 0x11c5372d1f2df40217a349798116253c30c84c688ab588dbfcbb2c57b1e30f9987d39e513259d256cfab6087a960f538 0x8595f9e633a53cb34cf69f7188459a73b3c28c844d1c8a76086ae8189685312f8a1f875b051191218309bae30fe559a 0x15efb73328d3d87114dbc9f4a54335218f0c7fbe20178d99d9862d5d0bd6d4abe25a35efbb4dcf1dff352bc6bd72d7bf;
  cs false 0xf9d63f19a410247ae40bec45ca181252d2212682996b4f9f8ad7b424dd5b408816ca717499eccb6d9b5cbefcc9d4f7b 0xa29cf4eca69a748a27383d82f4e5152101835e8ed6ba4583072448dc498ca0c9c6416e4a6b6435bab3ffa3ea0de0294 0xefb81e9fa0691256f270cbb9cf4b5c0fc85b1c642dd11e1b67c3fb17f28b039a358d6c75efbbfa1e78819e0c3b69982 0x4e6728ec12c123c177de74bfee2df3936465f65cd8e44ecbb00efd0966aa94fb55e44f70890d4a51f5456284ffc1956 0x170378c51659130b0ca396754c68f00d41330eadeec25f411da82069d61cb9d4a2215ed2fdd85cc96f0be83f54e47bbc 0x2e33f963147a3d0052485f47d51123924c1ee8be3029de9ab58ba68dc4e858d6341d20dcfeb38c87b9b4b23b1aff442;
  cs true 0x149b0c3d59aee58adab3393258e54f0a104d33aafcbaeb88624cac87c97a36ec4c3e8737b3b10d80320dfd3a6a45a8b8 0x1459d4a8afabc9f7fff2fec858887187ac7c4c3e0c4c7846945d69d5c3473c06a20a5bced4e6266b8a6dd0fc5006c707 0xfa3f61a596babfb4f47cb581ea514721f3267a1559ae9e23523d1ff0c6c94ce01a5db7ef44ae6db5b79d06bb75275ea 0x10f7f6e648f908d2790eb507b63262bcf36375dc34bb3751f78407b349ed69103883c04d06147ba5e380772f4019903a 0x198aea1dfb024ed36bb9012bf26a0cd47a92472d8f366081d46203663ca16cf37a222a55e365caf6860ea6e7ecf9bf7f 0x9f5af9e471fe40fe2616fd32154747ac87144b3cee16b1ad710b53a377098379606790b53043ac694a526f8022f78ee;
  cs false 0x9bbda390eedd953afd7a153f2e4a842905aba8fd8e5c7c24c956a5547fcaf7175f2c9cdd42c0eb091a67d28e6d1da3 0xd8f87cf7387f514d8c2f59e744eea2b34bfea7c4ca3bea4c154b9338e451c15546a3230fc78cf894101064f9952e817 0x9b6c5206ea78559342c2ff40a871cdd6c0196851b1f75cdff89017d8bd447433c0575d801f86256e42c82e0a87f428b 0x88a70cd7ebc5c4d6e25e1b87e270b590d2e75c23e1ed5a9953f8738b231b458e6e4c39aae0fd9f0e5a9475182dbc09b 0x152e749798bc496aa6abee4ca624c5d0a55d3bab078da3411b27128628e677da52f46b5056a70fd0f1daad22abd78971 0x3efe6fbf8249e2d226ffad99ba2b3cb534639a0c27e1b433812ba4b6e3fd9d34006709939bb749c5a2ab4c97e3d2a3;
  cs true 0x178f95764bbd1e0bf08e6e52e293ae58944f643cf5a1832eda3ae1e800aaecc7fd73a06a20e77c78a1f07f084bc84358 0x79e0e834177ff3b6e23d8a1f0f94e8115d4d086f524143cff2e562eb0f799512c812a351eec91c69d9770235b87d04c 0x19d0d8dc7f8e937054d994a8926732b709469d9a319d12b8d27d997bb6ad52d757c4ea084f8c507e9d6faa2e5a09dbe5 0x1242e76088ba4a47427bd7b4c276306c824a175e1633976dc4066d4c6cabde03e8326c91091aa242f95a88e9fed7246a 0xeb25369cc893e13d31455e6880f392b1b58ec3743e1d1c2ac29010e732e27a1a5e4a7e596795656ed8173ea6b2ce9a9 0x15198e0b1a98e1c85cbb862d921776a4711230d307b8aadea19bafee2f3f1ea00375bfea7026abd80cd31ac5cf70cca8;
  cs false 0x1972c2b97c28a962e67fb28cda0b70dbedc48899ba0a0ed959baad5585fa58cff428a4df2734a8539049ea3d02f9537d 0xb49ba64e8fc197eacc2cbd8dcbeebd670b19a87241c82d3631ce1861c2f8305fdcf977b093a3076cf810e1841e21a3c 0x718a0aeff571f22afe00faa383b0ff05bf1ad646ca94b333bcabcad82eb6eeda93526fd16e8532fce47b26b376078dc 0x1959ae89e96353f38ccf1f6561182fd41ed761efe24d8f3c34aa14e9e57f17973c05cf83eb73d2643eedb2842972ff49 0x193b99915e060eab69eba07ff04086fe433e274e5e24553cd4b1ab950ae653cbc4b31b0b3a0037533689bb46132fd558 0x3625c257c1ba56f34bb8c3c08372f5205991477a5082e0db955be63740590cb3f3f0bfafe2d7961d7f3688d209e123c;
  cs true 0x32311fb459cbdf8404016b27290075d0d3e59a73bb74722bc709f2735f67981e1a5c900e1ac0593de846a0eccf5c370 0x92e9e7bdc98838bb30cff2b875e1501f296256b80091b1e0c935a7fe846a75ac5a7b5badb901702a2ebd144cb4751f 0x1300e3cc8fc9186beb1fdb0a397dfd6d9838f3e4df70e9b8d72c31603cb623fd54783a1e7c52c76571384a39ee68acda 0x4851e0a9af48526d3241aedd9ac86e4ebb16e26ebbd9768e9fe94dd94b1831943709e0d0d51950940e91c88f44f16d1 0x182b4065279189a070981c8d6e3bde27fd9077c60c68685f34bc2f0fa31661e2cb7ec4d6dbb694647380d58117480e27 0x82f1d13950045e1fd313a19bbda2a18954f34ebbab34aae4238964dd910cd6b5a6cd873d94fcf3398eafe797096feb5;
  cs false 0xf01d943a33db2c8e51d9dad6c3a4c0ad3e0794460f0f31042d66a5549be087db00a03d9290e8335e79b23fe2efaaba6 0x1317c6c914dae0586329d19331394cd7ba5f6e0a3414845a8ff4dd5064d44b8f0ccb2a8a25ffc7f796634dbe30973d2d 0x3e7d92b496479ef4685e497ea3838693fcb5dbc170244ae2b6838e70f4ff73a8fa35519356cd6482f08af66526a48d6 0x963bbf98ca3f5d255f5b2bc371a50825203152ee3da5b7556bcf77a69b7fb355fbb47ca9c4fb8e035b04dce4a41e627 0x107c0f13df00b159ed60156b082358d93824621f57e319c8144f14dbc74f5d0919794d40da1885b4fa7fdbd7122288d2 0x14ad930113c771a98d06fc6a50cd274e888c354eb51bbb369811a7925aaf6baf1a5388f620d329645ef30c5bf3f8d900;
  cs true 0x3b340904424362c8e757dbc31cf2fed7467f432b6916e9ba8b47b7d7a36fa5038c6b5ff6c6e03faa755c8512a57c966 0x183708998613a0de4bc7568e093e926505488f6c7bf875a14768caa206a2e6eac1e236c77a8338f257b0c541fabd9088 0xfed99c01daa54f21acb5e164f3a5377ac2a76132103d7ccf66cb40a6745884365ef8c73492c22104a69de0e9733dfa8 0x1542ad2f9a45913a1c7898d765da1882fe5cb8f99d77780524fb42e9ec518aa9be894c1134b6a0ead0f25f8fed00d4b5 0x780a4608b4833ed7b3fedd32736ba4ce1a8ecb15de4f38dfd69247faebf60de98e08ee97a52234fc2f9830a5cdc8139 0x121c730e60daaaaa177e0b9a2c1d3f62f29e0b4b1166d60e56f104522a13360f4761c1987c4a10a2c64143ccc8cf7751;
  cs false 0x15997bd958d57b0f49b8674fb6ade572e1c38eb06cb570afb0130ff1f54b9d80b7c7b538b4c21916bf26816212b9409b 0x15f0aaab70ffedbcd1e4969ca17f6646c3e50bcbd0d7ebc6773d9b1df14dbbb0ef688e4aed3811796ed20b329afe2462 0xb92cd28a62d0632298ca101cf1d4c8194cd3b7d04eea094922e4c3a9e7a0f4b6ff074d2dda265f818f8ec34f590f178 0xd3bf4d3b5a92a7df43054e95c734475a4bbf51426454db218a229d3049e333f8f7fd30b04c1483237008ff79e28e654 0xfbb8367d7b958129e97b28b554394e55c26fe4c2b3565af653554c063a281be57d3b35f5da4b9d56e94e0592dec3226 0x190b8ce0f8752a03339a79a477d7b810d83fc10dfb44eee818cff9220329cce260ee1fd840a57dbb0686be719f58bd44;
  cs true 0xb1f00ded890a00205e0572d99286ebbfd70b827118f2963845cad2bc4dddac4011626175483b67b385fd56d3586b832 0xb5dd8277ca9e776b63fd72c4b3db3e80ddd1923b845f9ee5b205c4b6923706c6aeaf63660a19c8ae55234b5195ff47a 0x76e4518eb810d55db659f4e7f3dcd06f1b4712110fa002b9fc1ced423aa5cc2247b6b21d7f4e6be7e1d4fb0ef1da42e 0xbf7785e75a89484152faec3baaf201af44bb9ec5a8a467b8201e5da9f5de8f8864e08bc571d893729907f882fb67b09 0x116cbc252839d747bca2b261ee570dbf16caf546583711b9ae57c3ab711e9518f96f9b9f60d9ec34894ddfabd71ec588 0xdf2e7c75a1dd9d6851796d5ccee2da498b60f3b398bab807d68fd98210b5ebfb53066cb47cd52d9ba867477a0b1089c].
Definition fTabD : list cstep := [
  cs false 0xb38d083beeb761242c62a4abb0bc85892c6d2eb4556026e759f8b91678854d840a7fc30a4671963f42010c850dcfe61 0x159c9fa727b52c20fd6622abcdc2117e3e2abeb5b9d43cfbab5bbe8e3350704188219ae4e9690f6d87e6c770cc5e7885 0xded0be220241816235443d696aee083b41a428f61d1d802a4831f1da8756f79e4311a60fa0c6c40f8c5db5124337337 0x4b2766c4f486faff7e48f8b742777ad1f8f0c62e572f520e69d8b571890d257c9335298cfcf8e116fb4b61a7f871a62 0x57d121de1b98a446f33fa92808d0312487563c6a9b1888e9d7066205d65789b11c89e1a130fbded0e090bee45e36a3 0x5d3531ffc4f6c505bdbfe4e4795c64cead0eecd8d84191fbcae1f8fb90ab9dd9f7f269ee813f55d6500fc8a592a71a9;
  cs true 0xba529c2a5bf451398058fed4b1813ccb11b507de7dc6087759d4b5b5efce808c195ca1e3f0664800a059cbe6d74c24a 0x11826402aacfeab87bb2a65ff9ddde83ec68fb8b4a6a6116976f99d1fd0895726780ffac344f242a927fcb2e6383caf6 0xcda201fceaf0fa5c9c7d852db00ae223bee6f6ba6e916e7f8e09eb24a8eb2a66f039620f35f0e343c46b1297816f38 0x148cc95e64583e4d3f6f1fd903a42e85bee477d4a17601b7001d3e604f907b3d17f44a04bdf96a4b7d8ce2f652a1a4fb 0x13fb4c346ec0efb06ea4485361cb4ab471a81e810a42abf0f864d8206b5688eefdcd3b1a2a7fc67cc2ece9d7dd2e2b2f 0x8b47c024e7fc3c63b42d9b32947bd7e4a4e93a64032dff8f83477ddf3eb040228a63fe2962a9d5af9f16abef9be8930;
  cs false 0x799e65d9893af201201a434667ad9fa3954f75b3ddbd5a9978abb1ea2c9643212942a48b1f2872761e91ab2f0bd3343 0xe94382f0565931db3fb5049fe5fd2c851d32bef1ac19c681cdf6d61490b50df4af94c983ac724972d7ff01be1ab3680 0xa3b5abdedd024672bd368805bac225ceb1586c4c58b48d8cc7227b7b5c721b2ed59e8623921fc8bc10e2ce62d1ef2ac 0x18200eaa2ffaa087ae910fd1965e971fc4fdf3eedd9ce4d389df51e787872c61fc8ab7ce07073c679926f39672041b2f 0x15d213a64554ec4460aa6b20bc80bc7e1aadca25bde6fdba76665cd9694d29a0d9617885a536c2e783029e66e234efaa 0xfd6c3cab204829e05da59e5bbf806f7d81aaabe5e7955d7f76466924e31699bded0405cda6843d45325f4dcaf1a1b61;
  cs false 0x6fe3b0284ac5c838c8f84b6eb4abbe49f864b17260b2b8d48bac92ba89de5b39737135f602f52985391d33865c8d440 0x63244026a6ad45d5d8612d27be53d07b68df6bc0457a9005f0ef9aa70b82c7ff4ebfd84ce3ddbf19a24ccd4fc9137bc 0x14a8ebce311fb13021a57b265e5d968667e80584bf1b36663627902a221df28d8a49f2ebe86ac8e3edf0d52b96876d37 0xb5ddf812fa7d991bae93ebf635bf2c67c9d1c2c13c28b2c0f01a720eccb8a1a4382b757d884c9a23cf9a8f3c75a05b2 0x6d36dcd727cba02cf781537d6bac10cad3dc8bd26e38c5f1f6a58d6cb848cab1edfb6b9c34fc0c23a9ebd7178de4aa1 0x1773fa1176e2425a0d09bf537bb348f7fca0ac96c5efc9c0405b1f7c7689de05fd3a332be867269c610948d60105ad0;
  cs true 0x1697c88c185175e1fde0fc8374799cadbddeda92f41df11353fd33e9502bf0d833dc8872c99721db33dd4e56db6b37db 0xf873d8578406c1939d1e63f599039762748984ad8114603f7bc7e513cc2a770776cea7766205f6c1facd6b23ed2f7ca 0x633168ebe4159f85a87e5637a8cf2768267e8ee8974120865f848ef9d2031f2f0ec2b17869e5504dd87385cb33fe73 0x153cbe8edff3db63f86d6dddbe3acb468e97ad3f11c2e24ea26357659ae13b8607acfe8e725c9a58c60814c83b55897a 0x6737cf2884b04a230b4c7e5fcf0e28b4b64e25633cd6d5f293143405acfc42972940d538a638c68affa208945486d20 0x103ed7243cd61edb9c9b782574d5726ebe6895037bef8aaf9038afe37c74d3bc486e46adc243806aa2bc27375d1d8414;
  cs false 0xfbf5ec56b9cd0084c9cecf94cf50e202e3abb8f1732937a31a5a3e6037dd2d38656106a4a9ab398951ead4a2edd7daf 0xa6e319b08f028b80d3ccf4cfa3a940fa57563f1037d870554d6aad2c70239292e797b75803461358294ad759943d7e7 0xce599fd5bbcad8c60b0fcd22f6bffff6a1019ec18bd40e98e8ed154d3351af8ca8bcea6b60a980d14dd44807eb6507b 0x13fe332775453ed6a96a09261fe0ed8737daf7f0be255acc2543b60f79806c49fb319a47a21c75f101a15cdc7dcc116b 0xe807764a360df29610321dbf18aa57f2154810f653c104c4d6a8d5fe183cb4e84162d18e3c37cbd9d1a9ec43a5d1af3 0x15baf6950e1202482e755c88fa90ca41af4b5f283e4603bcc147c2740caf47fc5109af41b5b7c03b3ed1117f2b1eadf7;
  cs false 0xad3a12c9abdb4589bb73a87bd2e0dd818718ccc8bb9129cd235621f03f93e28d7c2a7d7d7dbfb456ea3f774d2bdced1 0xf33e89638279e21be5cbe27dcb37ce583fe8ad020a397edfa02cfd9cadbd5d1a4fda7e38f9a3ab836b34eeae7fa99ef 0xa2500523e81b48be4efebe38297fd25d65a6c52e740c3ac636c24246e061ae744c1e7d8072e47525466789fb0ab8ba5 0x103975dccb2589737c347755fb5422d9d3a63c3175219f9334a7c522696b174e3c3459812f9ac42e3de43d68f14a4f05 0xbe4e6fd47cf6c77ec7ff2c90abd98822a0fc3a02b33d9e7c3f387bccacef220afb6a028768feccb4716ff11beeee74a 0x3ae2da44d1374687187dc45ae8edd09bca575824fa5a225fcf760637bfa258962beb67ec781dd6860e4f87d475a3d7e;
  cs false 0x1328ce627fee60077841a37f72de1f03c3a678d2dd7a31b68d47cae2d4bc2b2b9ae3102fe30add5e9cb4ab885ce12220 0x161c309592d4248339b8a77f5827f66705a4dc67f119e8f3cce5dfdc12ea8e5ae70dd1cf5bdb71e6fc2e26772c541efe 0x136c2572090cc8ad2d7d99bf0cb23af5b499642e4aaa43bf62bb4faf1e3e03a06385ddaf905335cfc9133a0d9da2efe9 0x19fd09a6980cffd760a32899c1b462821f8bf849e409b0fe52d5bbaebf875d78d002cc45ff10dc6f99d52187910ac7b7 0xcd7b78d1277823a8e5370fbf3d3a3cedb65ba01c228b6df97345e6252e3b1e891b440285cc055d53fb9831506adbfe0 0x1982ab1dbfb3e35a831a4bc275c6f710d0c153b4de0879c650cdecb218f88510350658ea2e4c6fd950d29179f000428f;
  cs true 0x11aaa8a33209798afa773122086ef9cf3bf8276e48441acd53be7c838aa56f3d76c1ccd27d5e65a39a644a994e89be9e 0x40af8ba02d48f795b38a28b1b5baee1e9d3f9b625e6e8d7f3e1b41a72c5bffa56a28ea6909c497c60c39df8518a9ae7 0x19090b9a8328a4ef92305765b1468f329aba4fb0a6cd20d2e43b5f620e1267ba0aff6dac0a845d28b8f61b1214a24fa 0x163910cd03f4a3755e8c67f77acbcf47206216d6fcd44ae4478573dd5de6ad92a5c70dd036ec6dc8bdd4fc2e9e1e49e0 0x13529bacba46140fa8100064eab1915f30cd1e4f9ccc3f6c944dd947d12748e0b4aedc49c2da109093f753e60ff37334 0x215409b4ab0b612d9a81f9e157cc279cf338c384c18e9771b5f0dfef046ee6ef2aa2ba0b0f9859ea5821256727a3b9d;
  cs false 0xc85f5ea0c79ebbc9ea411f3cc050e8d01d79dcd27c760ea335c4c6e06433ef38c19888b45b0c6aadf6513d8e32c51e0 0xce45f17f89ffc9f89b744ebe70fbb590a31cfbf9d09f4d69be856db2a0e5da5223ab39b6f1c384785d3e0de38c8994b 0xcb8424d5d4a1da6c6e98fefc76a46ca0bf75fbbc1b8c8126198a9295f20c6f38f1df050addc0aafd418ee28b618be64 0x30b9c7aba1575947e307658a5d41d8c3b147be9c6f9527dc727117a24ce85736d799f8eaa0231108b00d37051652dc8 0x185cd486f388b6733965f4db0ffd9cb7714144f6f09612d65a607ac7dbaeb8ed7d1b1f26902ed2d12856d206d4d7de55 0xf6811feffe5d466b8b5be38e576d8159c116acd7fff726b9762e73d914c1ddcd8626a56b8876d983b60de46ac7cd025;
  cs false 0x143bb31f1a67dd721fac69c51a5053105f9ba772760ab0ccad326ce2fe03cb514c12b45c8fcb8d3a3a9baf801961399e 0x32bfc6c5cb0a14812aaca8b4478a74b4f5ef33ceed50867e968ed0c589f1113aba8ee7406977ac112ecead9d2ac5299 0x94404fc2a90f0c7286721ac7fa84e55fb0d40a2294ce49d77322cda885acfbd808550fb4f264f74400c1d19ac3d9896 0x1461ba22a30e8ae368e8a63e41fdf192de77bedd31b8593b9080f7e078685703add7188934165d857cd19fd33676cf5a 0x150be33c1957ea1e69926accb8beee5316da4c8e01b9e4ba7d2e2b3adf4e07cae29fb8d48d3381439ef5c2244f9c4ec2 0x15c40c6729de816543dc4e4d77d2476bfbaaa5cd10c0dfa18ea5dc98271c2605b4f0e9be1c41d4883f17535345f84b0e;
  cs false 0xcc1e5befc53db63a4e1bf1664b7be52ab117443c3dcaebbc78a4d176c2fe96ef01efa201017692a8300f5d1d85b01a0 0x21d493092956c68aea86c7514b34f51f6bab7286d540036d0ea9596d7d820155eae03713823404431ca6f553378f50d 0x3bccba61005f7c78b0ce45c21ef9b8ebcb2bebc73095ceac3d423b52ab294cdf3dba20d1c34ff108b51c20a763a40eb 0x16cbe4b24c2765898ddcc4a3e6d18050c8456ce94512027c4b7afb089d2436f2fe64ee49d83f4f7c13de6394408a3c79 0xca831cbe184310fed2f9a888bb1ee97b08ecba86dacd153882c59b1bed4144ef588e8d5584fb5b542912c07e35d4be7 0xbb0a7f187abe1de1e13204a9d567c3ac6251d552639078fccbaf27eed8f6286c9f1dd62243768742900599912c99388;
  cs false 0x6a09bd0af011fcea8134b594fe16e8d7057e725d91c43e91c8b9621efbac57952306dffb479ad383b882e36eb4fdd3b 0x1277316d206a7ebcde9e775e8d5a0ddb7bf4a54e0896ff61fba6981cb75f151df435c22aa7275e8bef881b6326dfc524 0x1495c8e76e7c8eb3aab4b258ff98e665db6e10b5c274ab80fe37865164c581d417e205fce0174f86be251f8a61a41918 0x103943b26191964a464349bec2eaf0b3956900dcfbf257b5fc47ee712d0bc5e8182b2187979d919d7bdabb171a95a658 0x839be6aac0c42c4a18179c46eb76f393876be3540bcd769bc82cc25506f852cdf64ac5a9c93b07970af0b341233a17a 0xa1e8ed6c8fbaf877d34efb4cd472f1f9ff1fe8052933c1848ee87b90ac1ce4f033b41b04e63de934511bbe26fc46cd1;
  cs false 0x16f7ac3a3c1446995d9e598840001343483072eb6a97dbac3e09c57dbdfbf3de8cc6d8d4d37f3842903a0833c2e55d42 0xa352cd8fc35d91ea4826946644eee6f086bd0f880c2878ec00514a1c387d0ff43222a04bb953c43089882c1cfcbb363 0x82dd9de6e247072851243c18460908f7df75d89d8d151bf1f9759afbdd8fe2fac96ecff8fae3ba10a5ae02622d5f968 0x14b2d942c0fdd36c298f2eca6722b711246df24f2d70bfa845262c811ee757f6253b3d57a5ab13429ab501c8c3499cd1 0x953fcc4b04a71857230d4abae0716a3342213e9f6ba2dab79132f62c7f45b4e2ab5bc933c2baee8cb048ba356a8e422 0x7432a4bfbde593a7319254ee1f2a0e9db4f7c1335bf5f46eb4fc7b3787a046f956bd3783a1ad936ad28bdd642356c3e;
  cs false 0xd6a54667e9a430ee4242ed2727be62797c0ef1cf0dfb4659684a8d3e07be6e8bc50537f0d7f8212f7d274b077992111 0x14a04f1eabd714d5e1915d3ba411002fec4756796c48491741e864def73ada273ee8f5c9aa639b9f0c38e38ad8f65511 0x3ade5fa7f5a44856c41c3dbf4a6f5e3c21f7bdb72341f993e9f76863e4b528976e68deb1d10559a37b7f792997b7a9b 0x10c06a295f1785271f74b799355df7152ca2bee8b0654aea814f55a759261131c474fb11e435f292f20b82d397414c9f 0x19f54ba5b8f7f00c86e77ee76ce5b3eed3e6497312d65222c9693fe7f94aa00219fd1e68a7e6ac8c7fb704bf0757c8ae 0x1868b77b75aff2fffc65c7f3e7da588d5fd41e9bd57661695f69745a5e8a80cb704348611e71a146d2a908563ee6932b;
  cs false 0x11bd0ac4c13595640ed5b2b34cb09bb440ce243927c14d6c75868ad603c46b0f5415358250047a522598936e8753a11 0x6b4014d5bec02752af99d6a8f97592c6a57ce677783683e8d5d079feb3d29b48630e96f3eda46090671e11052a53aa6 0x138684fbaeb36995faf1d2deaa78651694eba43aef21a5703188cca2a399bba8291f152e342308bcd1c7e368e6fea3a5 0x151f75d7fa107d5cb38a4d24adab4ca0797b314d4993e3ceaa762da16606152627b807116811936f9dd5bfec4a5783a9 0x1591fb42e5576312d76796493a820efdce84a2cef51f4e93dea043e7794cbab12e3a8c1bfa0dce5df30525c09c4e585c 0x5f35ce8bc76af4ad6502ae8d590e38a524927f4982c00b261d043b6010af488c3e0c67b58e42c38ba4668fd733bca8d;
  cs false 0x5900544ba9a322ff1142f7db551650c2b99937aee50fbc243c4de837145fbd52b0a4f3c1c7e2a091b858b4cd63ced07 0x3f95b06a9b058223b1fc76f836ce832acebf973a13f67be4949ae38c9d14396e2b4b212bd8dfbc665a1418c0d76209a 0x145aac8228286d40ef2780ac95b18af7fd3c356293a5cb5bc264989500c2bb37080b5dcec33e70fe28067ea50648a2db 0x16d6a5c672c3f7e53f936b9e8cf1806767412b374405a8555b4a79cf0af451797c8a086fd4ffb4e1a4884a3c2b3887be 0x5b5e450f55e1c1eef15b589c71a83f6f7465d20ce86d0e9ed994ed867f6246c1b41b4531483047b1b5fd5ae73b8ca3c 0x1055f41e31e81ac06e96e83987ee3e956d9167369c4d1270dbcb29a8948bbb7ac4ce612a47434c0d868066bd68d896e9;
  cs false 0x30da0fbf0cf53d9821f89479dfcddf7c053a9dcd0e55b2eae0f9ee5c66396d4c91af66ec706667a54550cda507edb3c 0x4b0bb6732b11b14e6784fd83da9f3b1898667e5dfe48e6e15d5ac6e67f0dfabc2cc11ebbba207aa4f68419066298185 0xef52291587e714197c6138a7e39b7e2c5f31ea87a4aa50f0975f2461d44e344d17ddabad52702166e4a5745f09820c9 0xbd8f2e490d98654932eef94666b82bd365c75701136f346b3abe54d3f92a854e4ad7fcfe95c5d993949ee173f381151 0xa851760f1502364d98265de6b33d899dd6e6eb1f3b891dd84029492701784bae3611d54602005cde0007e74f5d7bcf 0x2616afdddea6769394cf309f290a4881d000e165978e82104e705a0ce24fa856d2f86699a9e12740ca01ffdd0902142;
  cs true 0x10a0a065012f1b273cd2b203dd07c8e35922eb93deba546b6a99acc6a1ccdb0980da0f00a0a13b700c2b5ae75a7ba779 0x103fba387750077454c569a9098c0428a4e6592f69bd3797049efc2c7516ac7b0fbd3b8e300ebbd0a84a6f412681335 0x72dd123fb734e44d5c85bce8613125f34b85fe37a4a302b54b1026659f780c7c743160048c6fe0ea2817736e8779b84 0xc93da59ca119f1e73df16ddb0d35121560da2260f990afad1fb39603abd0a043ac4b2461453889494f5df0fa054b413 0xf00e70dea7a031c5012c88ab67969eb394c975a8aa626ddb1d306c9e3a614bba6aa41e4edc196caf1889d9f15c7c865 0x1892384561fb98a6e4ccb0161a3c2c940e50b7f839f8dfc2c0f86413bf40e739f39014c0c76e2c9a8115bf2448e0a306;
  cs false 0x1498063700e3b3acf1ef6d6ef51d417b9b24b8873819edcc5d196c06af2b9d695a845862fe57162aec54efcd9bc72ee4 0xe3c00830819e19d1446a815261a09275c1fbedc62d727ffba7bf1738cdab012b5418e77d5547877021b6735bf77f9d 0x96a4ac83f8d3000297d121bf1821288b08e328c8db2b499ea93b54508f9ef304960c1441b8f0845e53830a7dea04404 0x16c1739076b75711116d0ea8865314f485673433a83f6a49dee485d0866182e30e22a714ff64aa3e4a30433d77ed45c6 0x1213cb95776d5d658713d751ea196fd2c2382d61a1b503abf7d73c3cfbba658b39450a124eb77e036fbee6a11ca89f4f 0x761c7a862c7ce9b6b9f1fe56b4e0a4ac342bf1a249c045ae76802e78ba8755c3361e55db5a1c152c4fd52d05fdfb136;
  cs false 0x136649269fb7e3981ff68425fe9c1b34d0a52eb45ca528e82c18c633ef55c6d402357a3f3d8774c74c547b08ad79de5b 0x15cf8a35b2382f7c5946c8c5fbb7fb956f28625d6f22b0a379dfad482e93b279f5717e1e0b76e960a2538be49a6da483 0x19fcedea0ea2ae75d3e11f717c753c91928a7d51272b9981080a8f26dafb6aa45b53dde95d59294d06bd4526c1998917 0x47d1ad88240befc0fad02d8825eb9efd88efb7841971eb05acb0dfa95df9f7fdf23fdf9e028ec98bd1b0681e97949bb 0x123a693249b3a1fd8b9a8b817946975d27f387d2fe37795a71ae00d010a4be7fcec1166c4c12aba6e7f49d9de73379a5 0x1f9251a3903bb1991d4ae089c94dadba438e1123403f76f3ce93d1cae0129200a6aa08e7c023c1792e4f11006f16277;
  cs false 0x4edca502df2cd5860a6bbed61b43c7ebd30fafc1ebe924662548baf377d8b040735c843840f30c1db050e5994f9cc6b 0xc16bd24dbcc269e3bc27f1d28d5b0e6eef914238f030e98c69894148772035e2ec99a9dab4cc537d9e36a9b61307e4d 0xd705e44e28ae2799a10c1e7378db28613ccad587d2fd95d14e8f20a0949c8f32c37c830c0e13e2c71d0a39d7bb4d93b 0x1586a1ac3a6465bd962a64375b6b02273888e9842c504d54139de6e039bfaeb1ec362ebb95508a3cb3316f4ffe134f70 0x46fddeac1a1e551397948d83743730d9759c45ca76221a581c8b5c874250358cbddfe7143b02c48585ce40615b698ad 0x10fd0d92b46d8516572e4e802f14ca6ca4d3ef95f1b3c2f1b7890e7e868af9f536e5becc7602520d6f16e361abfa685f;
  cs false 0x179fe9172dcd4dc7925100ec67ae31ad0218ea16fb6fd42f97082b6458c0c226823173d271a9d14bca61ebcca395d358 0x16885b0321617e133c296c3b7e2a131f9117cf215bbff7102f02b7848782a2d25a771ef8aabee61904e9d82762c7678a 0x64c209c6124e59b224f60a4d6cbcd3e2096d3044b7463e255a3c944a01046b65494b6940b4b2b6cbe4751070fe137d7 0x1186e568528882d9885fd077dd42aa8a91d15aca75199532d4f07dbb7e6b07fb06612e07b748f2e5854de0931ace99cc 0x18158fd9f4ff2c6242b464db2d9f819200e26a5f0248b6141817c8ebaf2a2f0c2ce12001c21ddd75e6da0055b66d3f88 0x45f71af75542db9eb5679036bb7c89b0c8ff6d0552f9b28262b99e1884085a065f011d9d9075c073cd5458ecb63017b;
  cs false 0x6b92cfbc25f2511563fad4e25ac4fade6648e93b4cd3a348207adc02fb9ef3e941bb12b5664a7c152ee15c4d3936ffc 0xce295097b7331efb92d127dc11a7428bfcfc5a988058a11df563bbc9e9f08cf94435227beba44825c9dd973fe0d150c 0x16d8d1d581e1a90d4b2573919f236c6ffa25aa895b5bc14cad2ad86616d2dc636ebd7bb13683a02ad40b767a2eddfec4 0xcaac8ae469a3ffd935cbe1bf61cf479b70f16280864aea18a2fed938241d58244291e031e77ed3747da02ac76de387c 0x16c5f07d4f4c9e75bfe16d2da1644b4500d5a596a186b49b7e60567e5f1515a22c52599c1c7df1be57ce675e6d0b7576 0x18c7a5ecca1e58937c6f044654466c6eefc94ebcae404652af6a9b5521a90c1b38b7213ff3a73876641d2378f07abce1;
  cs false 0x16f93439bcc5e94ac7b62fd3165ad7b173a9a80a3375786740c999a0d39e686cdf06ef14d3a1d43745b663678352f76a 0x164c4adb3b6fcd18db7f3b40a557ddd8fdf64b6f85ecbf6d0896cce202e1cb9ef154361453934a5443e40f21977c010f 0x54563e74af3bdc0b722c9e462b97a4987620d1955f5b0170baedbfc721dd96b40dd9cef60628d6302e18974dd02e536 0x13750a8aacf5ca844b1e8b3bef86c69304a66e069a1a8ce5bc71b7e5fbadc6c181f5bff44bb43b7c7552c1926f02b674 0x2e80affbaede899b85cd57af0492179851fd80b783f1e08dd72ac6f5923d669ccf8825a12d558efb626d723611dc079 0x64f6435179da4d6b6ec527c15d5f80d0b51b9e00f03574db4514d280bbf851945a8cbe9fa2148aa33f14b12311e217a;
  cs false 0x6435baa81a451c07f2bbcff0384842d57141af24bdd30a89ece2e250d923f099c85c77548e2b193b0b73bf223304e0c 0x19f38a990cbd42792a428807d0dc3a120d31db26590cc0c9a4e48be08141ec1812912e5117010d992e55c4dc34d4ecd0 0x10a2b3b16cc1ed2e6cb7abd8465b5721d8980440aa3d458689eb0b9a005286fee8996c8862c7b23ce56b79bd470192b1 0x90cd697ac6557b3f6dd13abd48381ab55bf062624e60c78e5e6e9dab218c8610dabc2d2dec40436d63093ec9d414d55 0x941398e769f8b2ca5ff5f0d07c51b7ea1316e90a9f576ddedf73c62265e97093e337ef47c4ac6fe441b0ac11e593200 0x48df6ac06e3fd8c5c4bb77028a96b09abc22b1580ef36e4a729bffb6df5505fcd8eed35a1aca24023f01c684948213d;
  cs false 0x9b72c4f433793ff733c4a008f3a5859400888e9e59a8fcfc53e11fbee0223bf677a3a1bf82f2f207f9db64fd58b7f84 0x17cb81cf7f847914555fa1bc84372d3236855a554e5605b9db5f78a30489848ce62eb7121213dd06a684961ddc969b0b 0x1242772d7144f55acaadb2c0b5749cb12506784d64d572faf2eab48d32d73e965136a5aee4a534e6183bdb3f98daf46 0x15242d4a5e9c5a9498bc62d0c67419567f94f59c3d55749a140c95e72e1c83f459ed24a38afed9e4e00173bd6d8d96fd 0x19957c1775091f155ce0073b183449c814d62760c81800731624ca3b8b94bb8a322b5f80925c2cd2ca4b78e672e416cf 0x1904062abc97d7336d86fbdc781bc058cb4efa86e6b7d5cf62f94f296d5e1ee41b3e9b540358e5b7b17f48a8d037105b;
  cs false 0x1579b4ce29c3d32dc063c24c6fdfaf06a370156e6500d1b53aaa213f550ebe5ef202703c469a2796d682ea14f0ea4667 0x69b82aa7953a48128fb05700ecda798055f3b02890ba836f1546ddcfd8b34a8349974cdaf43456fd913b9c582b2f835 0xf7614c4354c1990fe0a80792639db9c85cb5e7365e873e5b241f23597a2554414db1373a320d99bbf1fbbdf974f15c4 0x71d6b0c8294e77e8402e1db164918ff4bb2859a535ee084c1318f03ecf4949cce5a39a8eb43fbf67d0af69284989364 0x59933ece141f47f7b093f96a2809bd1e7e776cac9bf87a0232a3d5ce5bb7f3a6f7e495088a014748340cc08150846cc 0x1d9f16c240d4a8f8cd26f757769a8aa176df3827fcdce5aca6ddac8f171bd5417acbc6e082f8562d4668096a7825921;
  cs false 0x10a3f9d3da35f96ae123488d328a985661b1148304248dc24b4aa6ba51bf070b193897bcad192448dd2204c2209236cd 0x4277fb56a44afc90f12f02550a09892fcb6f77376ec200cc7e6cd3694bdd470fc823fb644c63bb26c606f81e2cdbd 0x1915d02fea4bf06e4bdbed5b6981c4491046fc3fda95d14fff6f2982ff1e15345820aa08067ce2ea954596f3df724dcf 0xcf69bf692f9acbbc80f46f02b09e2c173ebbb340d834e05933e47a71bc23dc2459bdfaecdfe60230b308bc529343381 0x38d7721a1d60d67311bf2f64626a5926bac9be7dd4bbeefd9caf161659395e48e43b4196c28b19cca66df85d194e81e 0x10b55d0e22004285e256e1907c169eaf5fc4f010242251cfc4ffc0cfe495b9149dfb951ec8110d1302ff8397d999afae;
  cs false 0x8f369dc49c881d535488bf5ca85e0b0dc875e969fc1a678b4abc0000cd3ad4a192cefc300b4318c751a4dff046bd001 0x11a38eed937085e74d1f763b7a13a80f128a6f297722dc8bbc75ecd133e4da2c9cf53fc5976cf908732602a41a7683c3 0x1307bd9af4a2ce3fd9c2a795f57a6cb869d2a2a4d6d8882fbc3ea34ccc3803a3bdfce3c6f81acad88660a5a0ada9a74b 0xac9058966c26918ab124253e8991295c66312fde282082366f3320d88fd8599e91c7d9f2db93ca7945d25eb59335bc2 0x4ca059e56dd5e145f5cc94678e748f405590d1faf26047e0e109a072690eb64376407f2f9363ddacc758313ffed6b1 0x180eea92f00dc88b1ec35c3efc1f5ecb8fba2228ecd679e852193c20ac9571faa59707743c50609280203de0c04b3a07;
  cs false 0xef8a669bbd7da2202df4ab3164238710e9aff2617a12e1d03ab764c20b3a42be11d127728419795238f40fb136c4f54 0x2c2c995136f933f974518fac0b580a7ac760df5240393ba20e3b1391775bba0dcd02984cc52a2e4d851f918bc5093d8 0xd03e1ca55a59a898d0b2ff7f7f42b4fadc6575ced241fa0d7ac7ad5b5e39b2e9b407a0aabc2632319af23f412440e05 0xc3dd3b2fbc24f25e9fd18e381b6e63e641f744745745dc59ac4589223680a1d61b1ee035abf0f48040984c3b115b4ce 0x7e72078c1e46a3612ffcda8370c7814252c316a948cdcfc63d314f25f942e13a017e9ea7a6c563cf43950ae65997ddc 0xc25b80b5bdc867ee7f05c4c46f984be0a4a31621a1b300a439bc944d959e7e331b7ff0d71182732155850d5be685f4e;
  cs false 0x11b5cc90e9010534f917dc654cd3b21ec909f5977f34d1e95b7f472db21b2ee5428b99302590b1b60bba35b4c17ef026 0x131b191cb81348823c95aa12811f3bc60d6995a7e5efdc62d8bf2ea878eb6a2f5582ea5fffd221c960c5ec886a8b3903 0x1700e7b6192458b9b1825624e582c2c63e0574337d7c4191354fbaf21a453e44fb67dcd25ec443877850d55411a7b40e 0x15ac587acf2358727f996afed0ed43f66f55373fc98b644a3f8b64b1b00877e6649f432db6ec380dc8b3ad715e0432f6 0x5872d3779e5c7c8e64d913e1bb9d822a6b19c499e3a52c824b06f8421bc75fce7e774abe032e18fec49a4bb5f5f86f9 0x222e23f6e44a57293a5f0b4e9a40bed154f053c115715d7d07c7706e9d1a9faa5ea67621d5f8e28220d9dbbf5aeb98d;
  cs false 0x145c725d21dba1e20ac09bbf0aa385fe6ec06654cc0309d0252ac33e1ddac7c68a7e2585bfb73561e13b4174af27770 0x21ee4dd4247b23679a96438b3c80893610475cdce162b15ce568f13119c7af2b85881965bc20282a54c4144f54b0c32 0x88ae11c9bfe8c1c67935994e749e7bfd4a7911400e50012c2286b5082b1ec1f795ad0991cce277246c80b2b4ad5b283 0x11286e4c20102f3365b09c335a7a050a1165c2e52699a7387b4084a25628cb128cd62dc40d731a57ffc7a227e1e7a50 0x15c4916cbfb07ae2ed29e0e7cab425f139f945f548189f8a58b776e97801f225458196946dcdfc3db66f2836126aca3d 0x2944edb52d1684504dbc29fe09a42ca3aec36ef63bc36798c5bd9d17a05ab4cdd7b8bfc253869a8e4b3a4b2f0a4120f;
  cs false 0x87985584c15daaba279ed8abe014fb36544b54899b9dc57ec32b22500bd9f8ad0c96802a34b4731cd63b57ea311182d 0xff420365e15519ad3c462f3d67c0468aba653641f6ba5469322020483c8fd2e9e7b9d3c80eb7d5284cf5ab0b64a9308 0xc382ea6869a6b37dcd8008a5b714eb3605d06309e223b3910f3b0b7e3cda1db440d61e04b8f9a1ca6c6ba2efdbfc814 0x8bdfd1c1ee0cb50e7bcf249f30a5babffa1a3a32541be28b58f681fb1ef1e6a593dfb0107a59645268832b3bb095956 0xf9b7c939622b209693ff34e4ee623f67a36613b7381a6e81a295f042866da45bbcbf7b255c2dfe0a9016b6302889f59 0x53dc332871dc4a8c3db464a5235f7648a8f96e4ef5937bddbf45c1aa4995b4ecccc1fca285a0419a6c2347dc13207a9;
  cs false 0xc551a15146d390168a77164de31ce891137a25fc02b87f9ce8945a42e6faf5bee046bb0bdac49d03c95c4fb905fc89c 0x1614a1bc63a8a637b95258aeacaabb37cb800525502a2efa344014aa0d43a55c705b533538ad39d3bbef38ee43daecf0 0x1899d924a8301205ef283d9aec70c8a962928b796861f60a564dbcbb5212d8bcf3990add55efb8b51cc01729ec0ddcd6 0x15299b399b8f0aaf0a9e1f4dc4c20c76d61bfee51c1d0dbd427074b94e542e3f139450d0ab544171293f326275c28590 0x193fbec8f723c8e00b6811be25c9fee5989a2a20a47fcdcdd5cee92add033575e16a38eec2926ae15fe8fb9006be4d0a 0x1e5d738d2d256061f1a89a231e79017a8ee6e721ec286618ed5b0f61feb891b6493d8aa5f4c0907907ffed649698eb4;
  cs false 0xdfeccbcf9d7161838beea57ace2fd5d91dbd27431d9ebf36b40e054255c2c2681cd9172356bed8371b44ebb8e0b48b3 0x15b20e52cc9576ea1dddb047c263a5e83e09fdbcc90655687e67a31d02593411b8891124f93026d8b941ae0454fd0cbe 0x4e2575e1add7921dc56a27083959cb3de2f8574bbabcaf783d2d2b3b0c0a79c564c9c1b1f55280ae050f3d418d8315a 0x13f636a73706ec01a1194f5db0381147a7d3e343b7f9cd6cbfab02224e8c6915ae86fa6002d5b91f115275a9363e89d0 0x5b3ba7443438b509c09d39a35300b77761e5ad3c88f9d24f207af9978f268ca0a8872408b93fd9538ae2f075f0eb37a 0x398fb986ba1b5524c6c51f2a6082f0a0abc3838cae9cfbf21a6ca6c5c873db48e9d60d09a78c0105cf20ffdc5b2e16e;
  cs false 0x13fff545365425e7326c46874b947623232258dff2a4f6b0081da716537498a76acee17248e386566516d68490f12006 0x96b9555dc7f37b81ed247e4529cfc6098d67216e7f1b33e1712cb62dae5ccb59d71df730400d97dd7885b21a7416e91 0x8cc084fc6d780fb13f73ac1d9dc81e74f0ac37f2ef724ee2e387a748c5958a3910c532f54614251f9a3dd15c21fe75a 0x7eca6f5231f9c34fe9686b8bd028659846e0a6be4770d1f7fc1085159eb5e1c315ff058fe536431fb278f721b3299a9 0x1094a3805f2068d554d3cc3bdc633e1236e9a791c81aa13f12cbd2c46f84366be7b4ed7d40b01f73e213cb1cee7b5dd8 0x10b312a4f66417e67950af2fae2188f7eb41352920a22915b8899a9bf66696aacf382c7da5fc89533a294d5aedd83f4d;
  cs false 0x4f1034d57a5dbafb9d263b8e778aade9f1b43401ce546f1e6adf615b936ef92252e3ca5289c79603100dbd07c5dc80 0xe94ac9fd6a3389b79edd9e94cd562227a7593b8a37c11dfd6916d845aac31ffc4f208be4a2991269aefbea0fe65f333 0xa0a464dcf027b5f41bf5b6bbeab10daa12ea645d1470c948562403dbc7d690638517e227948fd327a6a36bf6256015b 0x5014cecdaf93c7bf8b5e3723cf9aa704df87cde91601719ffb89c0cc9c5d1b87cdc078bf22d01e8c8bd8de0aa6a8f1b 0x2d136c60ed8a32dce2b9c3fcd539404a1cf72482f21366c814901e7f1be6018589ca2df7b8df1f1448b42bd4dee76a8 0xd56151440aebc6954b24ef7a87ef001e65780c722b018c5f3af26abec7764b4167d6e237c867f788396ffbb5009d7cd;
  cs false 0x3bf9c982efd3dc6435eb46a08048b32fe9a1b7920f501955ef314f6faac2915df0c72bdc1de9a912b4e597235ce992e 0x26be18aaa6aea7d4928c165d8a9c098d973aa0cd461b6322f5d3c17d07a4b8299252c722a9bbc8bce34bf98d7c7810e 0x709ce129ddebb03ccb426f401b625c7f5f1e877b801f90de24130b5b647e3c52bf753cf5d71b708da0c7313b79b9e4c 0x4647e515649d049ce6065dfec93b640ea8a97e7784cd61ddd7c3dbc14d9582ab4b64975d89e9a874368f4e1ac2af9b2 0x16dbf1d131f041e509ec56a132d49377fb6d77ae5d9e88e4c0cf5fbd7c8fee91aa454b1491b2755890f4b7cb0e0a301f 0xf3962749997221feb9b19ecf6ffb6121abf1cd501840bf0a15b8384ad3ae5db77d4f4f71ee093c80f540d2f5360ba11;
  cs false 0xffc08f86f6f37d2a4f67adca8fa51b185df1cc4902d10e5f61542f9497728292d26a003298ed94dda04e33fd6345de7 0x17c92c3e32083a47048ed2884d3e5dd28d1e1f75315aa63a7448e382cbf3084e0b0dfaa1fa6cbff6f9ca84f3901b39a9 0xfa573d64a083600a7ad7e753c60b6bc34f5cee8f0fef951f9c2fe09a051cf0c4f7146b51f667e12f75a0ed44973650b 0x3ddc2a3b48c5117a668adc9a1d4c65e161760b916d552b3316574f838457d318fb00be0700c3d01803b9d1a783b96ea 0x670f28bdf4df65726f2d38135f9ca22999e48fc87a7976dfacdbe54ed0166a87d96c3eeb0e8a13189fc25a5c0d188d0 0x1ee9c0063a83f9637e8416fce327fcf1cb0da48c58ac724ebf2befb9f7daafcdaa761bdf10017ff624a886e25321eed;
  cs false 0x6b6c006e8a3e20c8035fc50f3845dfe32cd5ac500c27ace91a115f3b9159c3c419550a6d6cb184d3d6eb0885bafc987 0x1268c4628a298d721dc82f908303600e505767ca9b82383b8555c6f25f96adf049d579f7d46be088a5658e7c2532717d 0x12e4c72f497ef73c0809a1a9ac3b2a2ad2885d7ce2ce3cf2639b83098b7c8cdd800072056b0a2fc66f62fd4868d36f3c 0x2a3a6800ff55a07217efd21ee28ea693302f0b49f9a72638d45dbd4ff5ead9f6a61d1ddb04ac4cbf0c500bb1dce30cd 0x11d3216a01b5f096d692c1aef36dc9a23068042c31a2aaec1aa577e74599c59829d8fea3ff3df0ee92f2107a344014f2 0x1c26390c9bb3b32ebf090198ba8db191c9996b0e9a086bea9b5552a13a718f98ff65903787c8c4b64bf31620234b93;
  cs false 0x17acb4e1dbe71fe611fcfbd88e01c5f3bb7db73287c52fca18b8cf5c63fc13e8e581f178bc260ea818075dad3ffe4c89 0x1380939e582affa7b6dcf93e2991251a3f6283d1a7457bdb8588357d11f6849e49b5372674dc5cecfc7a8b5b2f6ea205 0x1722e3eb34cbf55c8a8af7abda22c3ca906f8f4b7b239302142f894978bba41a07f13d628021c9fb4da15bc5f0b31312 0x128c4aa791979af0759110ca06b8701a664a96fcb183a23fff7f4e2cf2083a3ecc9458ee8705726f2da85c0a391b960f 0xeb2be1e4d5b15c14337dc5620c88014b8b472fb66977946060a332fb78215ea1fa54b9df80fa6a9bf4c8d0dfdee413f 0x5fda1bf1777ce9f1c0b1bf9c16ac5e7186bc83409ef19f8e9d5c87099630ceba22ca5602b06490ece0a75bc7197f313;
  cs false 0xb560ab449341934ad4e5b72d51d9871c83582cea5ac700df5a3965a2481002aa239f4e8070ca257bc04f52509bc33d3 0x63c46c3a85f55fbfc92af53700a0a8fe28f87fbd3d483adb33e5da4ba545c21cc3482ce149715607bb12ff3a4d565ab 0xfe251dd87889efaabbaf5c099584ab5dd4d35b0c983e04b37846050e62b5aee626be9334e4cb0047428d6a4e3816ce 0x19cf5e8d9ee8356497b5944df6a0b4e6e65129f2cc6379f2dc3b6f23ab7411fc6c2df9ed898c5612130fe283aec9210b 0x17aba4a6e672d97ca8374b49d6321642bc7f37cf7ec7bc3e5121888e60be2bf9fde57b72da3b4e21349f90334ba342d6 0x11d8f8fe439ae77870bbd023197a5644e2b950115fd99340cb98409288be70a711d2ec2a3a1a5edf3c51d100c9b7bfc2;
  cs false 0x129e70b37b03dc9b45198adb226de1ff5f57da732a47ac636fb56fd24eaf798ea62950ace442cdc80edec529e36ae151 0x37febf5081b044e20bcb71ed5fe95d9614281a64fd4e9b02bd72ddfb43f278e4be8104f0b0089322f49f4413d1b1abc 0xe7ff19d52b4660427e19ed4c33a718c63414c2ed29bc44a2c6bf9ca28ab6408efec126141f3620f46de7b62730c32d4 0xf063c13ab0cfef6bcc0ee59e1b13ae8e55ae76d59be7cc39fabedb0efbcaff7cfed38d4ed3982958f142df224491e39 0x12f172129f5511ccaec4f8a019461c4ed336a1b82db207dbe075a7a3eb39f67ea394ec8e5a92fee9015cc155d99d25c5 0x16394d6460160d32cf900ecaf696fce26d471231c3ccc5ba514371fc113c8817b3a1a88b0da2c824468dbe3418cd96b3;
  cs false 0x23138c98f3ecf3d826a7213e2fb43f841b9053252a98e351a266b792a4432a1c7f857ddba7871437c5125045433fa23 0x1486cb20e3d5806b1bf06536d3d773c81d4784693ac87ded023f5ee6bd7516583895dbd6c47528b2870663264661cca9 0x12ba6327c39f06c10e4125c9f5496a5281e1a50ea567d8d7c19da73542e0343114129b9ff2ae191dbe8af9892402cd85 0x73732110a199b4e9e63ed62072c3241ee44ab3c0d8c2f7016f6585e375b6bedd34853b02953257acb1b93609b0d5812 0x6dd8ebe216e85d54c29e22aa62048686da99c172534d9133db9021eec05f76498e2b356b85beb104f2bf48f2988a6dd 0xb5338abe9cc4bc66effd12dc184cba343049d11c7191fbb89d66c6c6850f4e0e3f0a79818ee7d0e0b5761b1a10299cf;
  cs false 0x162d7ebe1c360ebe7bab2a25b3b13c8a2b4195bc3f05d0d623923c6cdf924f75d0e750ac95035f32164b587b847770bf 0xcf74381a718852da286cd2e3a1c71edaf81cfe5b3caa09df44bd41814e635bdacd43ae958637f44e9b991b64390b076 0xad6f0ee41c0ba82c4952816346119d064c9f8bf370cb7d447a3019d33fd09ee39c5c9c162f21c03af6dd850b2139ea4 0x1608fc708a2aa4e1f6e2727f1586ede74b41bc52fad6439295c044f52f9e75dc6324289a1be91aa1acc57b510d444a0b 0xe38692826123c5d8009aa753c3d8eef6c6ce6f80406cd139f8f9c039df433c3cfc260abaa34a5d9fa55c831866b3b81 0x109389b1b05f7282f95e435b53001fcbc975c07fde5e7edfbb15a8ac8903e77210d3ec64e837d68857d6f322f6d5137;
  cs false 0x49b052794b7e4a3b1f6b14447a2f84c67cc7f1e631dfd8602d9f087d24fa0db1ed7e984ad2ef27a7a896cabfc86f9cf 0xe31ad76a97a95876537cdb7ea144330956449c004acc6f1f3f36ffe5bbfb0527e178416a1226373a47fe856636323e3 0x1438cffdbd3a5a2aa2364720eeec4edf0840604397234cb226b4668f73e3870bfdf63878b987e4b04d935fd31b5313 0x3cf36fdf3972536ddfb617d375b6f6c8350297e4c9c011ebdd4a67648e389a43fff734ade7284cdaa8093bc8f9173a4 0x7e880fee0e8cc85c07afeb90cb9c35525a3ed7c28b7f9fc6440b346ec6871d96466b5f3813de68ef57eee5ff9cfe664 0x705ec60c700ea183dd2a19f8619a7ea7ae2beae49067028f0b2644223ee03f617541bec1f9561c3e48cc5335ea0e82a;
  cs false 0x1170b63f9ade65cbfd3fff4c95deb5128389a70fdfb097f953b95c83eff17d6e2e69032eb91ee33f8271b2901723fc88 0x1631acae59e34b1b28a35a71230594947aa62699812a4809745cb8515a73bc127a717eca3180975c6e83665634f4284 0x108b85b636fc622391ccb376aaa6d786edb4434cee1678e8331d69790992615138390f74476ae6c93a9aec34a905c16d 0x171d17bd7651bdf8bddb52097ec577f1bb00fa11e0e3d8f55d031068fd0c68296d34bc3413fe8048d7a6bd337bd39c81 0x106eae6c7beff2dc83925b40793591976bd1ebc5f35aacebde354d8e1dc43acf5abf9a58b6357356fecee153f8948854 0x9a2a9df5f7dc4a83ffeb1638481b105d97965601003d8724c19df6874ec956dd9daf6891eb1c9fa0d8b9adc2a32ab7e;
  cs false 0xf9393fefbc147bef56557f6e0c98ada5a47641d5190b3e63db32267ec2fd341eb8a03a0f0febe85bd66169c6453331b 0x70c25da99b9c12107b8dd778d773595a30974ada0c9ef69b8b7f43e3d780e2ad79c824501ae848db9137fe7ba7e68e6 0x4daff6013c07e67b81d13390fe883c2ddc413caae56d4fea3459f77942598f5192801baa8c5ed6a4bb0cc47cc41d51e 0x14469dcb674410037f794f892fa7ca2eda8af56fdfcf9da008192a432c502d6b36c4106d51dd0f6bea6675989876ad61 0xb43f2bd52821c8a6f0ad0b9c58314bf8c0b1d98b12f8eae7051c4fa920e51b3056c7454962520cd52d95b6311003592 0x112df9c7826dc8ce6f3f657a495753e611af68b901c2bfdb9978805af8c3af05487f6a4129eda98a5d84938ee2dae920;
  cs false 0x9b4c688045effddb817c6903c34c6ce0886746b9f32f0acad472356da1ae0961edb34e9dfd909ab1cc4aea6b1f4011 0xafa3fb26325d85f4c51f2094f2bdced1f7944aa004c40cea0696e584b17c9638b4303b2c153118759253d52da0c2da9 0xc7d58cf0ff98ba0c30698fae5b48d70a1b24348705613422b323c1aacd00d8297d9cdb5d993ed0dca4d21a090971e9e 0x1855cc56c4e5655423b5a965e50a86fa4965ffb8930b9f4f18ff1f7d69fab6dfad5f8faf13905d40ecb8076e5a49ed05 0x19bedc2ae186134fe24efbd5a9f1def118e82c4d97fe7b109462865a771b09adefbf65b5f60504b0d0be3fa63fe4c566 0x140338cd8e2df81da4bf5f49a3ed2e721e26fc56ed95d26d5536d5df8dba3ab693d23870a14dc10c427f3dbcbd84a504;
  cs false 0x19aeb9ff7a8a6a1e27be544f6a8f2d482a446d957cb15a4a1b308e3ad176abf00bb022f5224a5f82e9563e44cda52993 0x4634276367c809a77713a1677c98c4e202e379ee408752c3f9e259985f56031cfb3e74cf14ed5290ccddafbbf1a7e26 0x170214d83ac8f706aabb2dfd6f080a94cec0a60e568319832d356d100cdd4cbae6531c9899d4b9bd0fe437bf499b00a9 0x16467b4257cebef3adac5b6423eda80652307a1938f789b4bfa519950b7ddef85b0a4cd467d89e9fe712c6092db5de79 0xbca620dfd246572a243a76335c4aff9be28bb05e91678386585ecdef49435ad489f4aa70b327758ac0f68cca2465ce3 0xb8b75ca1ac4f265b0d92424545ad67668215f8eb0059fd01fa08fc2e94fee78bd2196ef7cd9b8907a0a250488cd76f5;
  cs true 0x180a89f0b627e1af35c98588b3ba9500a0746ba3dfa9f781379e405aa52cf8b9b4dc0b72964387c559f0468dde8d1983 0x95126850d3c3f950abb84dcbe7236e165bf4fece3312f388bb6e93a230ba5fb5ac0fdbe71c45475ffa141080f0e8930 0x83f027f8e8361637303fcf8716219950aa85f02834c9b570f3aafe9031d999358c7efcd6a393ce460b584c08e4e0d58 0x888fb5c2e6a8609f611d9f10f0a7bc9d84d9ce049be6dc6912a535a09c816bb7de4e400549c88608408d9a56e03a427 0xa97686f61e39161adfcc982ea97857e7a57d69899ec53ab9310f284232c4a2e99910b4a650c3a9bf08dfc21a17e99a7 0x12400c8341e47a41061a2ed61bee9477db5bb779c64dc670616b8f95ab90447d33f5caa6cd0ec6c39f0f01725f6e499e;
  cs false 0x1322e4c8a44a1a8521d0976f418752e606403435085c70f63208470175b7d01744c649fbea9bfccdcf04a29a258d2a7 0x8b966ba34c687485c2df80ec8b9def2a19e97a751976234349119516045c80d8ee009bbc3137f40915247b20fb3590e 0x2d57495835cb905add4b4b152c5432a74d2e5f06ab8a00e2086965bb514c287848e7357392c9f0dbaacd26a588f28b0 0x13d15e70060fd830792e9cdc7d49c586bd6ce917d036246cb68a531de9d8415a32ac7e25256cc1f6852f4a20607142f8 0xb6fb13b7bdf4cb0909bc29f157bd607b1f844312dbed92e81c97a9aacab147dab8a1676dcbe50296a5f25eb5f80411a 0x13ae9c4bb413c584f2ca3794b592ec935d44e4128dd5c940489946fc9b101066b950550e4e8b27fa2b1cb8bf157c74c8;
  cs false 0xe9dd3341818fc47f10474761f2418b18a010d6340d523fa70af69613e83da5e552d1eeb77f8935c64bc9bd204bd6806 0x3866b011b8154ed03b0b7ad7b12178ee15a272c47844ed4650465bc23b69f4b5b72cc2ee7daf1b6d93e9ea20270e4d3 0xcdbfa0bb754fd0751301be990614a2c13639f362ccf132c9af3704086003128f3dffab600b392f4351e7b3b90e3cbd2 0x134d948b9691e4f99b99e2c7f4dd418450c04c7a9b04eb4fba6ad752689a18609c519674025cef4311d518f7303f7a33 0x18acc6ba3eb070457a493dff9b86cbe551a79c7c58fa2fb9bf3e28ae29fa45aa7444b9d649e7e4a355e1bc488a9c6cb7 0xde335e85c353686f958d22e5ffe35e928bacd0fc79da913f54301501964cb1fc80e197f62548f5fa836cab9093d9744;
  cs false 0x682c723647c6c050d1a3c642edf72fdeb2098f0ea9b3cea904b1e06a8eb62353615aa2f47cedef244c84120de257282 0x118469a29983784888045b36761b5be1e6844b9d98298fa06847cd5cd0d7a2c2444e437e3140df6726e97ca542e9ebf2 0x12674f0c30619e9f933ec261dfdb621480b85b2ed0322c1f61d2b0f274649975f1c123fa86e61e415d3203cc76d02907 0x1418bffdd228cad00053e38a78f1477b1e466fe60dfb3c33f376d8071769bbed66ca83ed83ec12accfa8bae2b5915f9e 0xdd7b5763c040783e365075ff37f9573b11346f2460549e39ca6306d8fbe4d69ec92302a390af86b24df200486dfd46a 0x4cd9aa27e413f314e69ef016b24d69bac6f6eb15b7f53b8500a9f1e117eb5d7c6d6d365c3017c0c4df22ed8ec7a1b68;
  cs false 0x7f97c2c3e79d5f9ac7e8bc51656a5a316af7d279c684891013fc6ca8e5e179af0871f29d2b56b1a973fb41a08c05ee1 0x2b4ea7934c1c3eb9f5e74f4115acd88143fb6a36e3da6c81c2394c81d8273612bea975940b3a067c915812e026b6f4 0xa8e98dae14be6b7df5844dd5ec74c3a62bb60c4701436f070b76d6cc05d2fa6ced23d2eeeceed7c71b604d9cf6c5ac1 0x70c8ec1058cc31afa5fb4ca4fa79a40efb698f2c8eb7338d6ade0ef89859dbe82ccad0c890ee156f9a42089c349ae9c 0x2cc2d03d14452421a5c8232ca1c55531311e04b55e6eb6fe26ea98faef7171c9ac3d921b3ed6cdf8cbf09265a7e1064 0xc85e718db36a30ad2c49e3244ba8036da6633e79ce0fe332a148a27fa832fba8baf5322427c7ed8a6763cf65885e8f7;
  cs false 0x10a8f8df8bf860302f7cd64df6d5848db1a6e74e2c67f553b5526048f220d406599047354efa2fb1ed47612a0a5a6518 0x5d2c845f5a1ca28309f9ef8761ab8889e48e7608930f93be0e36e536bc733c77a9fcce404e46bd70eed04ba88fa5e27 0x876a2b3650653bf856255f9c39062f0dd3dc270a3a7ecb59975ea6f260e93a7f69d7fe94e07854420d239a8b3cef282 0xd1ceae6e989c3f961e45dbc5b6cd519628d82bea6ef0765fae0b3c78796aa7c0f04b2bdde782236781110e02b839695 0x154d9ab298a587ef3f802d68399df9aa881f7f6c91677228983ccbb72f7179e2a2033a9ef64093ec9036507d55230a46 0x4cec4a1519284b71d9376732ee8d88cf31bf086aeb092dc20bb49aad8c94c8de4086764c9761b5959c1c13432d59c06;
  cs false 0xb5964ba3e84c7f28215c485c98c419d6134fdf0af7aa11ec6b16ffcf1e72053a939bbff9d0167cc360679dbadc2ffe1 0x12a899b2ec0c37f535746d4cbeff86e7d58d19960982ae0a36e631382103f46ee2f83a17018cc4128102c3a1cf47c6b2 0x1780c8c9d94e2aa4f28f6b82b9c0fa1cc3fe736c4bb1de80658f19b1d1a529ce5733e5c7486ed01104e6f231e2c7105f 0xf8e92b75aedde3ec95208039d3e43fc235aa99793df732c9efa4b423e9ff8a61b1944fde931eaa84f2ae7f04e0ed26a 0x256d1b71542dc2d9b71de1a3afb2995c8d47dd13f92afe28c32ff0f08052f4d4a236039f6ac0d4d34cf934951ea151b 0xc8e4fe57eccafaa95e93d3cdf8691d885736d1fb4375229a065b28d4ee473be2570f3d6a52aff3a51e7ef14292135ac;
  cs false 0xc55de401c68c8a07b73e066e078ee7945eebc82d66c8e009f7f913139674d7ef2333c2e4c36644d544306b762d24381 0x186a8aef7f381513d19dc628d1311929a55fc53ab6897c9a66afb234b738871a2c9d9fe780b28e8fbad788f4b34e3502 0x19f04d6ac547a2f7ce3e3f6b1eb1874a77ae193f5dbb4b613bd0637616491a49e16091e7f280a08e8580696f3fd381fe 0x219f789468533aaef2a5bbcf60239215e58b915c109e63870a86ffe21f84928affc9c161566d083a8084aa27ba2e372 0x171835538a1ed4984c7204a6003bc6553b9a50b28d22116cdf09677bac02f431df8867aefe5efc538f45e5d7642be825 0x118508d32c2900131903ebdc0d33faf1318c165fd3351f5d1906ed730b2bb23a439f068b76b22161b680e62e47c78cb7;
  cs false 0x1e3f093538b63d8768184957f2dd8f5eb40192a47606434fca129d27a5c5ea32d97d3a392985ebc565c932604377003 0xce865478a84a859e98daecd02ad31d7f2f1739bac6eac65b51b3165e02bc81e36a0238ac349960f2ec48d44599a394 0x1315a94dbc13d2bb43925a7c886268a35523cc1d4da302e0e3ebbf6eae9eac5098962cb133c3680179502477990d938d 0x121bf3837155a63e7f8b9333a0cd7275572f0512fdb2d0c02aa56ec36a21e5e1db2717052d6727cb44754510e4f2347c 0x2b7e7b6a1ee68a244c54bf8adc9a1830461f9b498e678da5fd527e3307e5a653b6a506d1564f61cc491c51e2c052b87 0x6fcecfc38fecfd5df535ef03cb09bf3c2280380f69fade9b6c4687491922f57ad5bfe47f4b9b659d9b7bfdb7a9143ec;
  cs false 0x19a77159a756d66683bf33be603dc2bcf9fd81e4d66d16fbb0874ef872befbd1a9e8fec86b4b349f6eac77dffad69645 0x6ba59b62cf7bb0657de1b04cde03fde770d50859d4c0ae98483005ac08d9cf31c03599a404890889d5e020678466bbf 0x13c1779a69408a5430ffb9aa4cf5eee24f078048d20892546c119defe7afed8452b5be4efab772aa5dbf4b4ded3837ed 0x18a7a92c2b57d41a5d33c7808cfb240f01cd44667dcdfb561848d593b6cd7b81724bd5f283548ee297a821f23b304286 0x19e6f50609c2a8f05d1595fcdaa7b420f42c5d7c1f98de85b962bf4efb86d15098eb9aa010c9e97b1b640749bf3b1b4 0x4dbca2139630b35614473cc2498b467e38b7d1c20ce8024988678271d3df75ee6e2b5cc72cd4df24827730c5196d71;
  cs false 0x1750f7ef4544752060f9efa11eb1dedf07700ea350419d29a75ee3ccaeeb5b1d9a4f8af15ba29ca08b9894974cb0307a 0x11cb9a2daa1a73f93bef8b6ccb5494783bdbb3398d5a343d91f747c7296f8f57c229a4d505ee952c7810bec995940676 0x10771834d421bf66b87210adab392994d9f6fd80dc007db4845c8eb7af09c2fabdb8abed241bb93a4c857472cfc365ee 0x1387a51c6cac4e66705d31b3f28919ace39abb8a7dabca126a8fa11da993810a58b1f596d738ec54c52370989e1a4939 0x11c9b0df2c5b3fe631a9ac9fc3c51420cdc17549ebff7b26665f3f8233067a3cb66de7340103161cadf8bb8c27411665 0x74976cd4554265f7d4ba7736fcbb077f12c49ea1d942fd8020aeeaa3d1ee1886326261d16ea88e3e3de50ed2f5d1c9e;
  cs false 0x620aa270efe52a9620ea0356fb8a8dba484e3e0c3db823fbfa0fcd4277d8dc88deec4f7ac1f7015f32de86c70b07aa8 0xaba972e10cac0f5c48382227f52529f7e71800fb62f6da62b668e7656a636254730308b5a0f6a93f51efd85a71e11ca 0x16d77ade03af2654d26c9b13921b1698cf5273171e544bc047992690a17352cc6df8496d3d2d4f5ecb4d0f3047cc00b8 0x1011797d6638fbcb29701f41999c9bf5bb5aca6d006b9a9cf03a01429581137622ebd9c21429d07cf60eeaf473235a17 0xba04be9f44f4573d73eb6a163e77abc326239fde9dd7db77003a0e55705e7080b97d11c4b192368bc4e1e245c65cf84 0x12b2cea03ffcaefc5e8ea721947c53c4004d2cd8e8a2b4d7ff06e207160819ab48717c7f153d89590948ff6f64d68333;
  cs false 0xdff1dd857a5ce2a00751f1fb25e2ae26d4e157cff796b6643c7bdb41b23a6ee5ab285b15dd9e2b05a742d5dbcf52a3f 0xe87df9de07de5d374365583e084678b75bc9a7d2e14081aef7ca3e198f91c68e6c656c797321b8fecec8e5ffcd7c409 0xd1377e0c078b9fcddfc2c060880e4619ed91143b878f9f5d266b3899ba55e49af4508e3affb6d2ade81b135de718c61 0xec61c17a3f4e91eba2c04e4b99d72759642b5fd1cd21a3433c454e77972e42d968787cf2e99a149cf029b662d196491 0x18d7ce2044cd7326225eb352856001dbf6d08812e7f20734dee2af85bfedcd810645de29a658802de1cf0c7c383938d2 0xaec0a488b206d4c1ffc9ae43ac08a5b16b1a739af8da0b3697b2a4540601228d7c990a9346d014f77942ade4617f74d;
  cs false 0x119d0fdc54821e41e20725cced99eaf757f1e69dfa6aebd5754842461ccb9eb4353d936575cf18d09a064acf8455c73b 0x6215dd2af10f5d90e0d84f81f5f99c149087084390f9d13cbeec3d7bf5ba7769bbf9f0c070325a28cb822144c410d6f 0x8f0193d81d2d2d599463922974546b2bd61625ae749b9985dd12761451627a0cba9f73b519c8beb5471a69458e8338e 0x992732b9a4b5d089999aad59321f153ea057375763d7954afff2abce63848f89fee0085b9708f180635bb808d8cb50b 0xfc21658620b12f4d9cda556e9c691ac1fe217474d5cfa59d31f0589cddc029cb2649c5de3148d5effe8636ef01e0e94 0xd218f19050321a35f0a88baae4ebb8d38590ca47a4c6ff4360531a1b45ca52f4303a978936ddd9f4bae61ac4ff9284;
  cs false 0x357425fd89dd668971335dfba300c846ea21a662176a996f4fe9f9d7fb8300cafc32686a0748486637749acafb3e40c 0x11180bc786233fe27eb1e60dbe7c31d893a8c114dcda21d557820fc7a14008b81b37650fe9ebf139067545665379d085 0xfcbb2a4a86bffbd88d598f0645be976ec5174fd9a9f8b5256b9fd5a4f4fe21081523f24edce9a211bb692848ca1794b 0x93abee2c20752dc58768f2fc28a44445473388019f92a0c2ee154b7fb37a3a5398463562b806865f6882adbf4da6776 0x59676faa27e7edf31239d59a62ea9c32609778471dc00d80106ea530973ade00e8d3c46d59816efff095441712dd6ac 0x15b2a5e9f7469a7babea005d6113cb9420c8700b7df2299236680f69538931bb7f69b4e9d630ad0f77b43028c556019c;
  cs false 0x14b434aa2f816a84a37a3e0c6807ad6e050d4a5908fc11c13e419b1d0d335374aa47f6526376cc0af29b266d1a06bddc 0x16db55b102df46abed819b9d51372d3d3da16f1dfbb12cca02bc94010c10448b5bcb44b6da9bec1261f362ca9c4913bc 0x9dffc00805b0e12affceee5013857173dab46c228c8bb17eea1c49452170d206713333b9da314315b13d43c73374e0b 0x1bffa8b4502359f8795f01ddbab67efa0e044598b9380c4e73cc4baab0648568ec987bb00a13a9c87e7f9b41763fc53 0x9dd823bf4d0595daa9fba5fafd1861aa0ac854ccbdfaacaf7d9fb6f20a1900ae37b130f4110e380fb5a634ec9996ef 0x1041bb26918943d60bab5c827affc2521ecfe30f16f1d4fe951757c5a71a3a89ff7bc18edd0d86bfc94b5915336b9943;
  cs false 0x5426a38f7361d9260b2cc5ec38d4115086b46a7e1af79435c6ef830057217114e55aa576a3ba4c705263b986aff81fd 0x1366569f3d7db5bcde27b309134c8c096a8bafd23cde3a7b3ca161b73c01da840b1dc633902fd63276bf5789b80c2ba6 0xab76750a6ed4a4e536b458d944a343f8a8f2e5592becb3f70cd7f4626b1f45fedf3655102c5f41ac930f83f49a5e742 0x14e0daa2982a6f6cb4add4a65e0a1fb5bc7f8a12a238952705b3b7e2a237461fe505be813a9b52f993572dfe824ceada 0x740532951eb24707255bf571f4f8ab85bc134a8e8fa6972e3e6fb05e54799c5e89abc05dde8c41fad6f6481d8c89e67 0x85f45e2317c2b306d75f683fbc8077b96929115e8e05dc9210b4d344e2bbde58500106a07ecaa653a89b2f3ec9a0da5;
  cs true 0x14902302f8f9d5617088827ce067add9dabbf8fb4d5202d3c56f64eeea4b472932a0b758e5d71b9344c98016aa71ba88 0x1fdbbba456061d016a9c105d990290379bd462d294352e1205f441d791fad154510db96d51ea4e2acf47994504dbc60 0x19ad681b3cca82b9a60588a90d90d3ed29d92e51c0a111a81e55ec3b818f09f9bc0f1f5ff3923a3e622becc3aca05a24 0x15c0375341782f9635debbc9b40f738747b8b0a2c869c5b29ff97fb0d978bb9459219ac3ac5e0d4e6fe1e533112b7602 0x5c543f28ad90d9191fd26829908d96a2865b45c1d63c607f7a752a73e42bc52a4785e65bd07b4069af77a058352690 0x454aa727ce42baa87044aa38aa4a6056125dbbde91d7646cfc33726955e29e6615b01dcc31ba397b54283527018d913].
Definition fh0 : Z2 * Z2 := (zz 0xa523baedc9b09e5a05e1e9e7d9beb7700dbbd9874667a7a8091b52c195dcad94e8793360d51dbfc1540713425cc5e57 0x8c53576ffeae706646116f51ba776b2d1cbf5f7c2e3919b89a3c4ecacf95ae4309951b33245739344afee0964d65fc3, zz 0xfa3c41af4d36ca52ede61e4e7fbf8e26c7abb28b06972087eb8795113271a10d439a6b0e51c85f0e4f378761c06c7cf 0x179eede71590d80a19f94309cfc9bf67f0b19986c5ca625c1c9a5d53c7f16b0b54def24b053bcb5fe85c46f6c027f6d7).
Definition fhs : list (list Z2) := [
  h1 0x30315c36c407af888df4d526492ec394884c01e76fb0c31c5f0837127deb8bbbd53c5f671faf341470d7f63e94ebd34 0x1305ffcd61baed954a3358cd70f593f07b15ff1fd67af21aaf9c55fec99bd7789c4463c033380dbd1c85e402a67aff2e;
  h2 0x16dfe84e7cda3c6bca6fe0c6735ef43c0895a02f1eddb55dee9ed5577b2ac554d8ed074831905ebb89021ae3ee84c4ce 0x11a969fd6ef94c24a578435869e3ae567b7550ad2ccb94b1e67ade9cf59d12656877213e1019417b97fd83f8d7f318d1 0x31facc67bf73f9579738bef096e4298f73e4656961f99c6785b7ac517dca80446e9d382621350be6843d94c026c0039 0x14d7a84ba7784a5075936259a20b9977c5442732b093fd72ead609fc6d39bc8008be80eb1882cca12e60689855bac8c4;
  h1 0x44cfa40907720be98ba357d5cf8466afab06a162ee5e6e7cdeb0facf5ba17af4dedcce6260eec890849dc6ab2cf8ee5 0x6cdc0ba8450d58fe3c9f5c1831758f99cacbb44f05d2f9e1d1466ae13238e13eb9cc139b7e7784e533f3ab55adb9cb1;
  h1 0xde2610a568d2c289294eb9f9e1a7a40144bb5ba5b6006039a64e9bb978f2c495bae32361f8130462b6b0905f6e43768 0x815d96a529bcfab74ded9c70aadef65bf4129d457268f18a4e63468adbb7c006244990c6328eb7c12c2c8ffc6482212;
  h2 0x9e9741977991b629b7713f52eb2b2ffb66c9d7bfcbd0e28afc236efe1f2954db28059fe64eb34331be48cebd2192a46 0x1246a7224dca03e9d47a359e9c7a2f8172ced2b480bea1bf89f535b271dad759554ed09110e0269e9a59588f6eeea9f9 0x35078df63f188a36e4a4584b46f13d86edb5cb9e62df0b5b1a7a96eef02509aedbbd67f966504e2d21eb24862eb04e0 0x15f730a607d2cb37e7d4f2024a9bb41d206fd2a4234f49fcd63ef4e11a76bb8ba674238278798a97ed0490f070552635;
  h1 0xfdcf9301e344643d0ab6211d76e65d8f41e2eef1d5785ea9833d103ad6581dda54f92c2bb43e251f6db3171e1dbafa0 0x22bc7a445c435256a1288071b36eac50cf54f192fc94af2731338854b850f95c8cabd3678ede753dbaad706e87dd7a7;
  h1 0x17d164689b6e8e2a968a61b90661b066357b4e61d5d30a183275fb8bb7edcf3b762a538e869a1615e2e892781e84efff 0x16612ac9b7188f09813ab7502bfaeed0e2f76c210d2466552ce9e1a23e22a45ea1d20d70c1571ae26329afc1e06ccfde;
  h1 0xfdcaf01b9a0215dda6c0a712594dcd4537bdb3fcd81a89ea462e3817091111e40003cc61d3e9e56dab9fa2d118c9ca3 0xd56bb707fa66a512150bf58745ff9ff927e4fe90191b1a7c44b36bb9f33ec6922f8559dc6a297ef50bc04f2b148d9e7;
  h1 0x122049c1dc16c1c56e43de076d3f891b54e4c5adcfe3b4afda0f0e0115c223c29e1cee70b73af58ca5a0db1c3d90149a 0x10170c53e480bf037aecefd05bae65b19beb3e72cebb12cc7cce4036c1e5c8fbe4f9501ed0fb79d270fde83594f07d7a;
  h1 0x17b58f1cd9e91640f2ad7f541d16e9b0ba99ca619690e31ffb95bbd1729be754bca4615acb3d00b9768b3fd5acc400dc 0x936a0c083fafdf780400bc8b75b8d3dea18ae9002aa665542cc7669068c5a80a835aca81bf454f2ed7432d2febcdcfc;
  h1 0xc42ae85e070d8fcf25a7417b119113b1fd2a3ce9e32f879270627e99af0545953db9f5fddeb8137ed79ecc99b3a7c9d 0x174475bd722bb943568bc793c487aaf803566b91291e79d79384aa213d01b3c58060485facd6cac510cc487c930c4b8c;
  h1 0x128f39c406c0fef3d4ffdb89a3a693518bcccc7bec5a02ad686b2cdf85b2eddede40eaad7adcb950c4f08ac51125123e 0x574c519f4177b27ce4533d21e36103d8ef80a59d835d265d88ed6449e358d329102a664cd70c75d792a43d0e8797d48;
  h1 0x693fc9b12efb9ab8f0b9071ebd7c272cf2c33602af005738e8d91bf47c182d216f75d1ae8ac087164e70cc12b7bd752 0x16143c2cf7be21534caf023b63fab5b6b33f2f5477ba72fa3a52824f6d10af5670b57e3cc58f28d2c8718a03b986d6ce;
  h2 0x1093938ce7c46381728240151cf1dcd6eb4b7f5222fcf693c5188ce2187861f825c14dfa6af28f1bc23c05c9f8e61d2d 0xef4932ac2c6affe02485323c980503a5f9ed31e917026b1dfae87ca5215f2aa0474d3c0dd4406cd58f0f6edb715c5aa 0xb0efc9568969d89d4d6b9beefc23390a4215acbbd9cd0e84a9ef59dc6b7bfcde96a003b66b7a9b744c04c38c9238985 0x17fb803a5af81f6057335d5c5c4e848454eafc53bb407e476d6ca86dde32643dfafd344fde4ee6acdc89aa886b7053e7;
  h1 0xc6c5567ff0bf8c825d657d45db23073827b4237341a3e554967d484ea1c90e5274893ee72bc67eba6e2a9113d6aa1b9 0x1800c6e3775d2cf2f9ba239a9027f51e89634b9b0a69ecd5eabc4c2cc79c53ded74aaadacbb4a00d6237d13cf75a149a;
  h1 0x407bb5e438e0c2b866d83090a8a2cb21a211c0e10e9d2f6933d961d428bf1d8fb6b1afa572ac8f88b54ca6a39914720 0x144d4feb127819681407a2790315971850643c221b647d08c96109d5658f4afc0cd6913a6e3803d764ea09f4137be2be;
  h1 0x15ffc616090fefae5601d1e8bd4ec875f3d66fc9951f38377773cf13644b6b2b54b80b53268ee969d4c818f79b3d0bf1 0x1329ab1232e61d1039896fd068a15f52c0fcccce3be10e0db1c2e0a1b2778b8cffff51e112b0680763e403b22533240e;
  h1 0x1807b2d9ade62ddcdcae72ba60a0c2d5e806583dbfcb6f6f17872185ace93f300d71619a02116111c96ed6d0dab1ebbf 0xcca5ff65a77b218242682446a9368c7dfebca1cf0c020013a3ea94968e5d5ddb4ce74eadc48cdf111b4796ec62db807;
  h1 0x83e362bb41c9a91869c38ee1a8ab2cdf04d15324582e6b21bac164a7a06f366cec949c534ff3544cad1c246c6bea85e 0xb23757b40361d4ac22e40d2ae474276ed7b95cf86b4d8cc0ed774377f8a3b5ab0d25d00d1eaffaa2d0dc714050bd8ff;
  h1 0x40652295408a9bd0529d664b74a859d84462a84e476a7d9800f9ff96ed8734d77fae530cd648aaf35a411b79acca4cf 0xf4fa62b266ded1c871a99899543bbaab204a8ac3272d354c772f50c27964c77d8c71de05dbe7dceff19e21bea7eee4;
  h1 0x11604377e5b98b7acee633a21dcd163bb0edf2afa3035dff3e65cd7a1bd26064e1e23c56595b95bdf65ce10a585d7dcc 0x19d09f08aa11c68fe93638f993240463624a78e371f83b16ad2fa579468e7181c0395147d6a85d5a3ad3826338cd9fe8;
  h1 0x1927ef3bd3bab21806eedd5651cb87b87f2feabea952a74fa0d30e4af36e178e9be2ddde89e343ac4ce922573327a330 0x37351baf45e26282172ae7c5fc1a9c8b3b5d82f8a7ef4fbd4f969e9c598938a7fde8aa2e00f661be0b18ae316b24919;
  h1 0x19b06b796b2824a018080837f3f337780c9942127cf431180a44d2f280381a7a402a448e1305c952daf64674a7c3bcd7 0x642843d1ed4c8be0576b8ed23fefeb667f6e5f18945775378c7f88961ad91047651fe57f3279defd0f347ebf3b9aaa6;
  h1 0xa4a12b975a384f1ced6312ab05d214b1597f975da87f94c2e2130e4aa4c4008eabb6df2215f24669c2d329cebac863b 0x1f00912c9d1fd399f9f830a20453309e5feec8e59616aa99a2f186e27a8ab654c455d93aa2bd940f7f1f67ce6403868;
  h1 0x11e4c6127680866d82b68ed8eda17a1b8e5c307e17fea7902174028b7e728fe49e60f7196185421d99f93abb77e97987 0x4132ce1881eb786153548fcbe4c25009727b84e2740bcaa2d7f8c2ff5e2a202de7ef06dc995ce5e503cd5fc4650f4f2;
  h1 0xe3e77e41eb0b32c81181f2ac617f3474c9fae6e4f14ff79d297dccb87e25e350eedb9774bcdaf08e293939220c86f19 0x214f8468cb4acca38444d19903aaa4fd86af6ebe76604151167bc7e040a70a37f599875a88a9e4d0afc3aeee9c44442;
  h1 0x525b63614526418cf3be2e18a0a767480ca5e066203dbbf653ec828cb5a81180b415d98b00951f38f355b75cf31d13a 0xbb9ca7c42ed52d071736c9522ba13a66c0f4e8eb7721aca1bb41b777a146a4f2ecffaf12dfd9f8febf7c3d886518649;
  h1 0xace351c9392f6a619f3edfa897c9ca32935c65bc67c4fdf1821f0554d611a28cf8b7834aea7a60e672676d49cc34258 0x8ead930954dbba7aa453e6943915336ba81d4d0e3b5a84e54c2ef9f2ba78952d95d6ae6a1627d20b6fea912925e3ae3;
  h1 0xd2d6fd9dd2f585814fa1276aa0d96d0c2a9cea5231ec71ea069ec7e6724466995a007b6382228a4bd8246e63c20d778 0x16b7993f2cbb39dbd5234eb256f293ee2eb9d78e80fb1bd80e6d802476b63a880badde913527640d64a0154571613512;
  h1 0x2a1415932db7ec2ca38ab52fb896fc6322dbabfa07ca684afb4c2931cffbffbcf4848ed1f4625304834cda9a2f508b 0x18cc1a0caa1c879ddae90021305a694a6f8c5f3c13b9e79b3b4d04c39706842c2c44ceaf46bafb148ef992c2d137236;
  h1 0xe9e1842a0e5a753e0fa84c85c649f2ccb532301bbcaa741ecb164b7b2b4aff8d0f8ca680732d4331772c7f4d17eefca 0x9b594e1669dc2aed90aad9e65796035e87b42351a9fefc30b4ba9a50e6388e5858ecfbf9c8ad38a3f2e79652d9037c8;
  h1 0x1512be10ddc11a015492872d3826a527efad798e60874c7c7ccdff98b9f533e0d4cdba8a052382ab6f12175965582710 0xd341e48ab9457275c7459be913e48b40c65073bbdd1925ab54ab0de84c050b89293dbbb11a3303db7621651fd7c3782;
  h1 0x6b6df242bab1694b33e24b2b53be32f33e1449a621d89fff031393137b4ebc8642a5e6b396615408e1a08d4beaa96bd 0x10ba561c8aa5071277b451f8acb7ff8493d2adf3e5e9651d84616b1449a21c678f7c1b0d5c5a76ee61399c339f23a6e6;
  h1 0xc74ff7608a01e267498dca0a573d96b9f9f1a35cb6cf926c92d20c9220153c924f9b8e5c9e2fc3b9ce4a8a0f2fe1302 0x9b78615ba3ce330af2730f0bc77d25ba4041d473fce37fd9d53eb3a0c51b0bf0b95fbb9d6acccfb90f20695857fc333;
  h1 0x1f2b678b5275c192be45e706f9bdfb6396b3f7c6a38ef5453369986bbd880e35bb44aeb0a780cf7d328126419164fc6 0x1b0a723b5899c1b1cd0f8350382d04010aa7809627556d3ef2663f2ada35073a72de0c64b0c8c471ca1a681524fa132;
  h1 0xf0e5a6519329ff85270c123763ea21dbb46fde5755082da7d2cba26c65e1fa71698213552443266b9770743b537ceee 0x2bc5593f2f27e2def54458a6a29a21751bf70c93bd7f7dcd5d4a6e42cb4a1869a25ce355b07dd5795795d63edc7e464;
  h1 0x12b6cf41f06fe0dabfbe60d917686363bc262ce1cfebb37e9b0db94c3d84a4d15b6090c1dc4b332c319d10a6d50d2d54 0xad2d599ce211f1dee62a0f9fc02806ab4088c551b89d86d78ff133ca0fd55a5a2bd86a8076b4e1b1f0c0102b2ee3f5e;
  h1 0xde490cd5325d74071834fd53ae73e8e9e9f5306b1da90091a239103b4b5eee9189f23488ee13162d707baf14469e56f 0x1372c39135b1b71be03214504a147813c411401ce7dd5f8426703d2feac00cf847da72147c8c240b267b46dfaec78d53;
  h1 0x115bb0a5b6518682625c6afe00505fe9812c8e1a5479e64f2a4c00a6f67e2b3665af6969402e528a4504ef664e3551c4 0xaa6c4d94edca6b9c5d4fd58f7b0f6d5c52c38a8bba8abfb95654e2f57669d63a1408f864d8b5e2c99ccad16d55e547a;
  h1 0x62d9f270c4e7100e2b25d009561759020a1d8e24b3945b30b0ced5a29c0ab29007eab8ba9a39fd09ef3fb068d44534f 0xf9d05e48882acde67305afaf145d72c4effbe86717f698bfe9bd321a570794b4dbb0b6632970e691e2a660361cbf2af;
  h1 0x3015bbced1f8b160bcf6436a60504859fdfaf8f54cae1884241463a1ab0dea7e505633d5bdeb544c5ea7eb0d3c11e00 0xb0335e33f4b41200da269736927d7cdd221cbceb26b030f93c96f6963d1605271a7631819b414895c9f0ebec4c0f8c7;
  h1 0x188b0fba72485b01e28726369c9cd031bc4c647cdf263d3d076bc5b188724fd7b5392f3eebbaef545ed04d69c94dba1 0xa0faa003cb20e492a397fe747bb096a8271706686ded8b7d829c6bab4d0ec45190b5206a84b9930dc4565e8462548f3;
  h1 0x7ab1a575df051c97ef6ad2bd15c138dcdadb6d57170439ce93a3c12f49594c13c81268611cb491ea5544b6b35d5f7b2 0xd12aa5bcc3f0855048bd9ee959322848ea93797b7573b969be90e01ede0dd88a3931a0f4dac8143c62b66eadcb7b3ec;
  h1 0x14b65c9c2952c8b4add2b95e3a37977e89fe36ef0ce80faacb5890867f7c4c4ca7f648d88513998b06b87b67005c4794 0x97f972549937cf1f8e1f110bd87fd68dec44459618924e320b8d8e4ac5fb350519ea1af8a62b5ce9f27d350377ac058;
  h1 0x2a66078d8b254d7ae8cb9ac524b1ff8ba5b590cbe5dae89830f64542e877f2d77c51d6020ffd1b3a74d1d8c324c8dd5 0x16f444201c07a0fdaa5eb78d1b6ccb597394d9f43e37aca4471ac5d5454016b4fb085b04c7cbc6830fa3958a745bf33d;
  h2 0x16524959971d314444759858a8a7d0212f7c974146b620104b949ec1478e07079edd78b6cf82830e0d76e5a8d25ff32a 0x146c7d0127e359a929aeca3d14480bf0baa10121050fc8b2b09e7f013c36b51a45f2c9bd36884bd3ef9a3fe877913da2 0xdccaf63a98faedaf02c8512c1cdd8ae80415153ab74f6f23edfa13703cbd7dd3944e1c7e4502545c4f80c2f3950de60 0x838da963e96cb0e3a54d8e259a7cf55a895e45e34664376f3b4ad6f35b322cf1946254f0e1ece63d8e963d2db915ec3;
  h1 0x7ccec584f9cce2f6d08e35f93797e72b9033ef8618334afaa15637cf20a706097d41595a313f09e62852fdd84a4ca66 0x5b84640e284fa2cec91e8e7b6a737dbf9ab74c48519f33a36ed1e68d474e355d4770c22010bc7365e00394668282b0b;
  h1 0x4b21de7a82763fdfdb949003518c38074a0225ce9cc02d2553d2883726511cb93b8552e9b83f5d10bb2d78fa7696d3d 0x82cd2888f715b57ffc4739a2214c44b77607b203ebe70b3a4e4e8a7e5a83f07a250c69c82e984a427802b11f5894f0e;
  h1 0xf4e5aac1be823701d2490dd7b5a30c5a209ac1649718f1e6af8a865b4a27112b316307cedbb4eb1dfacd523646ee803 0x12504f17f910456cb07ded5bd7fbe61d3bebcd9bfc7bb685a223abc27d2036a141d1e7d22582a66931a046a91d968f0c;
  h1 0x156b62359016577388e6067bdd0f388aacedc0d0c0478030baa6872ffcb10172a43b49182a79196c4fb78d16b6ffbd7e 0xd3f50a057e455fed19e4bf5902a0925c8566bac36a11c53329c3f7659e1bf23f3025e35f7422b160bf4fc31417cb2e3;
  h1 0x324bd07101300f8054c9e8add0a7176d2c3ddf7ee91823c68f5c8d9398b696d82a49cd6527db6170027a81dedc47960 0x10b3659c849048128871ecd04b781491f1085db1cfe917328994efa15513513ae8f315d6e5a09e2bc84e779ae50e53;
  h1 0xe28529158980283a191d64f8f91ef5a3bfcb4c5773091806fc0398469363a927e618d0cd68e88249616a96196bd2f71 0xc7071d90774ae65022fff55ea4c6365c4b17a336321663da845c94c252b9bd4c5bac560b5c34fe593958fcaa9ee99ab;
  h1 0x124bdb782cc452e27337c9254141451535d22d37f786839784ef09e097a2dd226bace7bcb1772ac594eac7da110eefdb 0x5783e52a55234886bb746dcdf2b58704e1cde47987894936233236705d3cf76c451ef7fca0cefb5c8401ed358ded5c2;
  h1 0x141862cc2b701a106f6da4e4c10a439472e987ea8a401c83fdd30fefd73b39191b031ee09f9fcce3dd64fff6efd9573c 0x11a14a3a59c5b5d9744e54d22e9d70f56b8cd3b95d5358ba1769d5343100809891aa93a262f89eb12c5c20c19c45a855;
  h1 0x1279bab181e88f470475071198877645913f8fcd4945331cd2fde96d95dfaa5100a376069f63a4fe5a2ddb532e0bb089 0x74d2b8222b2e336097d6c6eecc09da3527efb196ecde1994280b470f004b464500e175ae76bb9f619960c7325fd24d7;
  h1 0x15cf5003348b8f82871a0b8f1eb5c674ba52625befbd0732e5f3de20628abc45be58d7225a09b34604bfb6cd6d400522 0xf62bb4a55b145d4acba007c1217027bc862ac2910f318bdef8260a98231fd81a823ce5ffd5398236028048dfc15e223;
  h1 0xbd0c4f98c69787ef60eb2daef2005954947b5a38c41852129b2c592d080cf859c453a22d22a36385029f1d926d0d4fd 0x13670d314d2eeb1b59416064b084e05ea71537f9bcd20f50a17a4dc5cdfd2160a8df5f6c5c721d5323a0cbb1ae2e9832;
  h1 0x16bf564f7f1afbe57be9f3f3d6c667ec0664f5c9f282ffff88cbab8ed266262d4506209a9478d4973992bbd0c0406344 0x7a2428d8d29875ad14e02ae7c203538491e58f10d74142dd8284cbe9b5b8807b9e297c16c37c7ac7007997a4d5826b8;
  h1 0x7c5bd019a4de074ef3512ac23f304354acc14485eb0e7bf95a811ab0adb353fa6d9e05891dd54dc2f1f2f97152a6fe1 0xe835bfb0b227c36a50fa785bc35a569f926c6ef8b48c2d6fc70001f7cfd4e3d4973b860501d00171acf4e698f657be6;
  h1 0xb25228abe829444a5996ad598262b3dc9d7359c63f44c86fa31ced960007d4a7b09b8123449195355fb3430ebe27e67 0xb0640a47adb90c48ac33f063397a646a80ca29791e096dff9290aa0d7c894f4e9abcc2f78dd27786b657cb9dc90d3aa;
  h1 0xc341df174d7b99431ed904d9a4079b430ea88716bef9e59e69a65e4288eb34d5988ffac10f441d2f349fde25559010c 0x1117c2a01191efb6348d2ae38f24754515d4f03090aab42a34c89b962d7a0eda328a0a9b620461a270f168742b3daf0f;
  h1 0x9c1dd73e156ae33a03cc8eeb35b6f11d0e71c4e5577ca5c14ad5a32d75205c7de39b23ec4028d7ce680c2c4eadd41ba 0x1687b733c12cf9b9581d39d6af6decce61f77abcc876305f11b2739e1ed6f563117fb55da099ddf11c2c230740a97c59].

Ltac fl := cbv beta delta [e2Z zz fu0 fa0 fx0 fy0 fu1 fa1 fx1 fy1 fq0x fq0y fq1x fq1y fSl fSx fSy fAx fAy fDx fDy fCl fC0x fC0y fBx fBy fCx fCy fUl fUx fUy fRl fRx fRy]; cbn [fst snd].
Lemma fS_on : g2on (wP fSx fSy). Proof. unfold wP, g2on, g2a, g2b. cbn [on_curve]. fl. fast_e2. Qed.
Lemma fA_mul : g2mul (wP fSx fSy) (blsX * blsX - blsX - 1) (wP fAx fAy).
Proof. apply (chain_run fSx fSy fTabA); [exact fS_on | vm_cast_no_check (eq_refl true) | vm_cast_no_check (eq_refl (blsX * blsX - blsX - 1)) | vm_cast_no_check (eq_refl (fAx, fAy))]. Qed.
Lemma fD_mul : g2mul (wP fSx fSy) (- (blsX - 1)) (wP fDx fDy).
Proof. apply (chain_run fSx fSy fTabD); [exact fS_on | vm_cast_no_check (eq_refl true) | vm_cast_no_check (eq_refl (- (blsX - 1))) | vm_cast_no_check (eq_refl (fDx, fDy))]. Qed.
Lemma fC_mul : g2mul (wP fSx fSy) 2 (wP fC0x fC0y).
Proof.
  change 2 with (1 + 1). refine (g2_mul_add _ _ _ _ _ _ fS_on (g2_mul_1 _) (g2_mul_1 _) _). unfold wP. rewrite <- (third_ext (e2Z fCl) (e2Z fSx) (e2Z fSy) (e2Z fSx) (e2Z fC0x) (e2Z fC0y)); [|fl; fast_e2 | fl; fast_e2].
  apply add_tangent; [fl; fast_e2 | unfold g2a; fl; fast_e2].
Qed.
Lemma fS_add : g2add (wP fq0x fq0y) (wP fq1x fq1y) (wP fSx fSy). Proof. apply (wadd fSl); fl; fast_e2. Qed.
Lemma fU_add : g2add (wP fAx fAy) (wP fBx fBy) (wP fUx fUy). Proof. apply (wadd fUl); fl; fast_e2. Qed.
Lemma fR_add : g2add (wP fUx fUy) (wP fCx fCy) (wP fRx fRy). Proof. apply (wadd fRl); fl; fast_e2. Qed.
Lemma fB_psi : psiP (g2neg (wP fDx fDy)) = wP fBx fBy.
Proof. unfold wP, g2neg. cbn [psiP pneg]. apply third2_ext; [unfold psi_u | unfold psi_v, E2_Neg]; fl; cbn [A0 A1]; fast_e2. Qed.
Lemma fC_psi : psiP (psiP (wP fC0x fC0y)) = wP fCx fCy.
Proof. unfold wP. rewrite psiP_psi. apply third2_ext; [unfold E2_MulByElement, thirdRootOneG1 | unfold E2_Neg]; fl; cbn [A0 A1]; fast_e2. Qed.
Lemma fq_x : e2Z fq0x <> e2Z fq1x. Proof. fl. fast_e2. Qed.
Lemma fq_diff : wP fq0x fq0y <> wP fq1x fq1y.
Proof. unfold wP. intros E. apply (f_equal (fun P : point E2 => match P with Aff x _ => x | Inf => E2_Zero end)) in E. exact (fq_x E). Qed.
