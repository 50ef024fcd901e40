(** The inverse matrix of c |-> (c <<128 8) ^ ((c >>32 11) & MSK) ^ (c >>128 8) ^ (c <<32 18),
    found by Gaussian elimination outside Coq; that it is the inverse is checked in
    Proofs/SFMTFinal.v. *)
From Coq Require Import NArith List.
Import ListNotations.
Open Scope N_scope.
Definition sfmt_fixed_inv : list N := [
  0x79dbf6e08082d892831fe35c9f7ec891;
  0x26f8be27a866106ad25a8c11dd892638;
  0x1a154557e560cdccd494961684048484;
  0x278de37cc158897397afb71a47240fc;
  0x7250141a16abec7e91e127e90386dbf6;
  0x41244900c9044124c9f335f953dfc9a4;
  0x44e1b87d8e2616e2d4db8e50ff5200b8;
  0xae0f83ce737a2d156844544c5e6ac9a7;
  0x99699a44a855c45f7c748afe9bfc8082;
  0xc5e5b9590f0697e6454169c944c80053;
  0x1049124030ebeaf6976025a8218ec9bb;
  0x9cac6b39ef779399615c315737e36d17;
  0x4699664a42339e75eda175215b200054;
  0xae0f83ce737a2d156844544c5e6a4987;
  0xd84dd3446151857bb587bf07c8224966;
  0x8104012481208104919ae799bb98006b;
  0xc79d676ec3131f717c3b92b8e09ec98d;
  0x233d4f5aef4447accf7237b8719ec9ad;
  0x99699a44a855c45f7c748afe9bfc8083;
  0xc5e5b9590f0697e6454169c944c80051;
  0x1049124030ebeaf6976025a8218ec9bf;
  0x9cac6b39ef779399615c315737e36d1f;
  0x4699664a42339e75eda175215b200044;
  0xae0f83ce737a2d156844544c5e6a49a7;
  0xd84dd3446151857bb587bf07c8224926;
  0x8104012481208104919ae799bb9800eb;
  0xbe46918e4391c7e3ff2471e47fe0001c;
  0x5c5f17d472257c61d28bba9ac17ed95;
  0x837cdf134d350993a8e01ce81ff80007;
  0xbe46918e4391c7e3ff2471e47fc4803c;
  0x44e1b87d8e2616e2d4db8e50ff812471;
  0xc79d676ec3131f717c3b92b8e038003f;
  0x6992e4a0b0693264147fc6f4bff4800a;
  0xfb709c1e8e15c2d77af588bfbbbc80cb;
  0x186d9b602975455bedee6d67246480e8;
  0x278de37cc158897397afb71ac56c9dc;
  0x33745d1adfafad5a5812121040100012;
  0x5c5f17d472257c61d28bba98c1fed9c;
  0x837cdf134d350993a8e01ce85fe80015;
  0xbe46918e4391c7e3ff2471e4ffe48018;
  0x1bc2f0baa6c2de1a85ae2d2e680a490b;
  0xd99a66a922f396ade4ad402e680a490b;
  0xa9b2ac84f84df2444cc560494c6ec9e3;
  0x851645b485a0c514dd1a8391d3b6c9c0;
  0x278de37cc158897397abb61ec46c9ce;
  0x33745d1adfafad5a58129230c0300036;
  0x5ae6b9ba6fc69f3e4c5c18971b9480e6;
  0x9d7bded4acd5804f3074cefed7da4921;
  0xc02048244824c02058bea7bdf39a49e9;
  0x65a42910ad77d9d92249240000000000;
  0xc38f23fec7935b6130299228a028002d;
  0x589e678da3d317a97537a7b5d39249e0;
  0x17f43d0abbdc35a7b3e111a9338ec9ff;
  0x80d3b4c9c28292d2c03238307fa12455;
  0x8104012481208104919aa799f3bec9c9;
  0x8d32cc949c3e6ab9a736e3f4bff4800a;
  0x1e0701c7e1e089dc98879687e415a497;
  0x5ae6b9ba6fc69f3e4c4f5cc637e2491e;
  0xa9b2ac84f84df2444cc160494c6ec9e3;
  0x9ed4b50e23621b0e58bcaebfbbbc80cb;
  0xdbe2b89eeee61e3addc7fb4f844c80c5;
  0x33745d1adfafad5a58329230c0300036;
  0xdff0fc0eea665a2a91069b06c8224926;
  0x9d7bded4acd5804f30f4cefed7da4921;
  0xc02048244824c02059bea7bdf39a49e9;
  0x3f4290aac2b146e76c153c971b9480e6;
  0x5ef4fd2a6b46db2e045d5cd677f2490c;
  0x589e678da3d317a97d37a7b5d39249e0;
  0x7250141a16abec7e81a835a9338ec9ff;
  0x435c97370511c9b3d01baa18df892478;
  0xd99a66a922f396ada4ad002c202c8029;
  0x9ac6f19e27e25f1e94d7f25d8c7a49f5;
  0xfccdb35405c1e578d9149b1688324934;
  0xe6d8f603e0b16ca541930d916c27eda3;
  0xff62d88e8a46b20a6418049b04092488;
  0x7ba328d74ce68c725d6dc7e4ffe48018;
  0x5ae6b9ba6fc6df2e045d5cd677f2490c;
  0xdbe2b89eeee69e1a4d4d55c47fc4803c;
  0x6061d86deab776a19809aa089f99246a;
  0xa2394e7e6e957ac7d5cac3439bd124ab;
  0xa5846134e5842c34a971517b7be92494;
  0xb82c0b298b9e2dede86c60656c4249ca;
  0xe2cab293e4216ca541930d916c27eda3;
  0xbc3e4fb98f77f3990ddc51575bc5a4bd;
  0x56d0740a720b404a28d964d24867ed6b;
  0xe5779dd96f84977405d1695b445800d3;
  0x810401248120c104d99aa799f3bec9c9;
  0xe896e58431493360157fc7f4bff4800a;
  0xbf91246300d12ccb090f310e57bb6d4c;
  0x3f4290aac240fa08e53e0dbd4c0b6d8a;
  0x65a42910ada0ed14f0cff6c688736d7d;
  0x876e9b83492f690a84795cf277d6c92c;
  0xbc3e4fb98f67b38b45ce51471bd5a4af;
  0x2480601064802c102955515f7bcda4b4;
  0x1bc2f0baa611fad3c5646dec607da472;
  0xf8dff7c401d3a5e9d1979f95ec236da7;
  0x7e66d9aa0a62b22ee43c04bf042da4a8;
  0xd84dd34463295b4c7065ca6df3db6da0;
  0x40f3fced8eb416629459ced2f7f6c908;
  0xbc3e4fb98777f3990ddc51575bc5a4bd;
  0xeefc7f23e9956da7c0b504b72425a4a1;
  0xe5779dd94f84977405d1695b445800d3;
  0x3d3a4e9d4e57329dd446f6cea87b6d74;
  0xbe46918ec342732a3da6a326f7936d61;
  0x3c0e038ec342732a3da6a326f7936d61;
  0x42789e358c17c8953178fb73e47000fe;
  0xb51e47b98777f3990ddc51575bc5a4bd;
  0x24f1bc678abc36ebb0d0cedad7fec901;
  0x81044134c13081169188a789b3aec9db;
  0x743a0e9d4e57329dd446f6cea87b6d74;
  0xc2ba6ead2ad71e8dfd13a791d3b6c9c0;
  0x879f27ecc3935fe134a99228a028002d;
  0x753a0e9d4e57329dd446f6cea87b6d74;
  0xc0ba6ead2ad71e8dfd13a791d3b6c9c0;
  0x839f27ecc3935fe134a99228a028002d;
  0x7d3a0e9d4e57329dd446f6cea87b6d74;
  0xd0ba6ead2ad71e8dfd13a791d3b6c9c0;
  0xa39f27ecc3935fe134a99228a028002d;
  0x3d3a0e9d4e57329dd446f6cea87b6d74;
  0x50ba6ead2ad71e8dfd13a791d3b6c9c0;
  0xd9789e578cc6e45e3877ca7db3cb6db2;
  0x7f40d0a8c240fa08e53e0dbd4c0b6d8a;
  0xb5cd637443580b3307af271ac56c9dc;
  0x18f7bfe949fe45c18d766dfc206da460;
  0xc36cdf014d274983a0f05cfa57dec925;
  0xc1044924c920c104d99aa799f3bec9c9;
  0xe60bd2caa06b28664dc3694b044800c1;
  0x61b66d802a3def7a52135a11386c9f6
].
