(** The files of fitted models /repo/bfit/data/kl_fpi_results.npz and /repo/bfit/data/kl_slsqp_results.npz:
    their bytes in hexadecimal, generated from the files; a new list starts with every file and every
    directory record in the archive. *)
From Coq Require Import NArith String Ascii List.
From Verif Require Import PyText ModelNpz.
Import ListNotations.
Local Open Scope string_scope.

(** The value of a hexadecimal digit, and the bytes of lines of pairs of digits. *)
Definition hex_digit (c : ascii) : N :=
  match c with
  | "0" => 0 | "1" => 1 | "2" => 2 | "3" => 3 | "4" => 4 | "5" => 5 | "6" => 6 | "7" => 7
  | "8" => 8 | "9" => 9 | "a" => 10 | "b" => 11 | "c" => 12 | "d" => 13 | "e" => 14 | "f" => 15 | _ => 0
  end%char%N.
Fixpoint hex_line (s : string) (rest : bytes) : bytes :=
  match s with
  | String a (String b s) => N.add (N.mul 16 (hex_digit a)) (hex_digit b) :: hex_line s rest
  | _ => rest
  end.
Definition hex (l : list string) : bytes := fold_right hex_line [] l.

(** bfit/data/kl_fpi_results.npz: the files, the directory, the last 22 bytes. *)
Definition fpi_files : list (list string) := [
["504b030414000000000000002100fc2bb59820010000200100000c001400685f636f656666732e6e70790100100020010000000000002001000000000000934e554d5059010076007b27646573637227"; "3a20273c6638272c2027666f727472616e5f6f72646572273a2046616c73652c20277368617065273a202832302c292c207d202020202020202020202020202020202020202020202020202020202020"; "20202020202020202020202020202020202020202020202020202020200a36b315f43df3443ea948c2167ed75c3e2b18b5f62c8d803e718498b1acd19f3ef1f469d6ccb4b93e8d023c333201d93ec011"; "54336f81f83ef22af9ae10e1143ff62945e9c2ca333f1fc901ce78c1503f87bf20744a676c3fd1eebfcafa82853f275e2a7cd5589d3f1d8e7bcf47c3b03fcc385e6bfa1bc03f1f9f47a242d9c73f4f0b"; "9f2a6036cc3f8197205611e6c83f51d341ad77acc23f7a97f13b0de2913f"];
["504b0304140000000000000021007559e60120010000200100000a001400685f657870732e6e70790100100020010000000000002001000000000000934e554d5059010076007b276465736372273a20"; "273c6638272c2027666f727472616e5f6f72646572273a2046616c73652c20277368617065273a202832302c292c207d2020202020202020202020202020202020202020202020202020202020202020"; "2020202020202020202020202020202020202020202020202020200a9affd8d3303ad0402a8940d8de60ad404c0c823537169f40f99b229bc7ad9440ed9a1dd3eae0854008fbfdc4152872405efcf356"; "711066405ad22a3e9fa05640a92b9bf1205346409e58b4fff3f23840be11456a60b829406aee07a450b71b40a2cfa84caceb0f40f632670708e20140707e97d5080ef63ff91d61ad227eeb3fc810ca10"; "67cde13f946e980e5993d83fbdd3dbe91a43ce3f3a6e4fcb54b8c03f"];
["504b030414000000000000002100eb8ec49e88000000880000000b001400685f6e756d5f732e6e70790100100088000000000000008800000000000000934e554d5059010076007b276465736372273a"; "20273c6938272c2027666f727472616e5f6f72646572273a2046616c73652c20277368617065273a2028292c207d20202020202020202020202020202020202020202020202020202020202020202020"; "202020202020202020202020202020202020202020202020202020200a1400000000000000"];
["504b0304140000000000000021003ab1356688000000880000000b001400685f6e756d5f702e6e70790100100088000000000000008800000000000000934e554d5059010076007b276465736372273a"; "20273c6938272c2027666f727472616e5f6f72646572273a2046616c73652c20277368617065273a2028292c207d20202020202020202020202020202020202020202020202020202020202020202020"; "202020202020202020202020202020202020202020202020202020200a0000000000000000"];
["504b030414000000000000002100fcb1bee728010000280100000d00140068655f636f656666732e6e70790100100028010000000000002801000000000000934e554d5059010076007b276465736372"; "273a20273c6638272c2027666f727472616e5f6f72646572273a2046616c73652c20277368617065273a202832312c292c207d2020202020202020202020202020202020202020202020202020202020"; "2020202020202020202020202020202020202020202020202020202020200af9c5d294dbb3473eb46e901e31f9663ebcefb144a4a7883ecd8dc505852ba53e96766fc2798bc13e6c239c1d7c80e43ebe"; "8f1b2872b2023f673689a185621e3feb405e5f5d363f3faba893e986e0563f388bcd89fc3b753fcdce86bb70848f3feedab9e1840aa53f6ae63a3fd5cbb83fee60ef6168ffc73f4cbe4098ec64d33fbe"; "16ad5192b7d83f0ae21833ba76d93fbe88be4a27a2d43f67362392f119cc3fe6a98d4c9f73973f"];
["504b0304140000000000000021001008b06528010000280100000b00140068655f657870732e6e70790100100028010000000000002801000000000000934e554d5059010076007b276465736372273a"; "20273c6638272c2027666f727472616e5f6f72646572273a2046616c73652c20277368617065273a202832312c292c207d20202020202020202020202020202020202020202020202020202020202020"; "202020202020202020202020202020202020202020202020202020200ad9b146cbad07f040f24716d5cdcccc40d56a25698e0cc2401e044a6f7671b740b1b099de5c23a14046c0097117519140baa00d"; "b51aac884062905fefa3f67140db9b25562a8366401ad747eb8cdb5940d70b0440dbfe46402e39600c97fe3c40388205a03aa22d406ae6db998d9c2140f1a37ef73c8614404190801ae9c0084024021a"; "38a883ff3f966ea1ca959af33f4418074a3405eb3f9fe12af1ced1df3fe9f1174572e9d03f"];
["504b030414000000000000002100758e6e5288000000880000000c00140068655f6e756d5f732e6e70790100100088000000000000008800000000000000934e554d5059010076007b27646573637227"; "3a20273c6938272c2027666f727472616e5f6f72646572273a2046616c73652c20277368617065273a2028292c207d202020202020202020202020202020202020202020202020202020202020202020"; "20202020202020202020202020202020202020202020202020202020200a1500000000000000"];
["504b0304140000000000000021003ab1356688000000880000000c00140068655f6e756d5f702e6e70790100100088000000000000008800000000000000934e554d5059010076007b27646573637227"; "3a20273c6938272c2027666f727472616e5f6f72646572273a2046616c73652c20277368617065273a2028292c207d202020202020202020202020202020202020202020202020202020202020202020"; "20202020202020202020202020202020202020202020202020202020200a0000000000000000"];
["504b0304140000000000000021001b090f4148010000480100000d0014006c695f636f656666732e6e70790100100048010000000000004801000000000000934e554d5059010076007b276465736372"; "273a20273c6638272c2027666f727472616e5f6f72646572273a2046616c73652c20277368617065273a202832352c292c207d2020202020202020202020202020202020202020202020202020202020"; "2020202020202020202020202020202020202020202020202020202020200a27d26ecd09a2453e7307a2c8a5c8523e98957d329a007c3e8697453b9ac39b3ee3d0e8419537b33e17f84a32f05bcf3e5f"; "15265ad1d0f13e9ed530b0aa3c0c3ff425a950eaae2b3f0f7718b04e034b3fc534f856ab7e603fcc9e90b38bd57e3f2a9bfdab7685963f689fec6257a6ab3f913f44a02fdabf3fb464e2291654cb3fad"; "a1d6d35c21d63f7e1232a2b5c6d83f5f922220d74ad93fc86caaf8f218d23f027b20498418b83fdb1bf22787b2cc3f1f07bde4c6cfd83f8978e4a1b17ad43f912277ef03bcc13f"];
["504b0304140000000000000021004d526d3848010000480100000b0014006c695f657870732e6e70790100100048010000000000004801000000000000934e554d5059010076007b276465736372273a"; "20273c6638272c2027666f727472616e5f6f72646572273a2046616c73652c20277368617065273a202832352c292c207d20202020202020202020202020202020202020202020202020202020202020"; "202020202020202020202020202020202020202020202020202020200a43fc76bb60f008419a097f8e6a77de40acdefb53c111d2406f1c3585d720ce403122f0ac6e28c6405564796bc8b2a640d152cf"; "1ab90aa04069c51ef9b27898404a90be2aa6be7a40e424db1779537740c31e0019ec266740dc4ab7a27c7d5640243af54f94d24c40cbb994d70a2a3e4068cea274ba863140b65af737521f274076ac07"; "af2622174087465f00cf74154014ba7a33cd670240a877e3efca67024044557f91ca6702402ec0dd7e0eddbe3f3c44697c0eddbe3fb61ea85a8f86b43f66bc390fc0cea83f"];
["504b0304140000000000000021003a9bc10588000000880000000c0014006c695f6e756d5f732e6e70790100100088000000000000008800000000000000934e554d5059010076007b27646573637227"; "3a20273c6938272c2027666f727472616e5f6f72646572273a2046616c73652c20277368617065273a2028292c207d202020202020202020202020202020202020202020202020202020202020202020"; "20202020202020202020202020202020202020202020202020202020200a1900000000000000"];
["504b0304140000000000000021003ab1356688000000880000000c0014006c695f6e756d5f702e6e70790100100088000000000000008800000000000000934e554d5059010076007b27646573637227"; "3a20273c6938272c2027666f727472616e5f6f72646572273a2046616c73652c20277368617065273a2028292c207d202020202020202020202020202020202020202020202020202020202020202020"; "20202020202020202020202020202020202020202020202020202020200a0000000000000000"];
["504b030414000000000000002100fdeb4d0048010000480100000d00140062655f636f656666732e6e70790100100048010000000000004801000000000000934e554d5059010076007b276465736372"; "273a20273c6638272c2027666f727472616e5f6f72646572273a2046616c73652c20277368617065273a202832352c292c207d2020202020202020202020202020202020202020202020202020202020"; "2020202020202020202020202020202020202020202020202020202020200ad39a13eba2b5543e26bf0ad48adc7b3e240102e243fc963ec342d56272d1a83e1aad6aeff857ce3e3e28533d2821ee3e05"; "394ed8738b033fd62027a0af87303f68191dba991b503f1eaaac9a991f5b3fdd482a922b4f7e3f5f15bb9f893c943f5e7ac279e80ead3f1a810571420dc03fb8bca08547d3d03fe96cc5e0408dd93f93"; "93f7883d22d83fa88b5783ca5bd83f82e0781fc1bace3fbaaac08cc757bd3f2e6cfe0fa420d83fbc1f1ffc8a05e23f3f9c878bc092d73ff054a9114150e53f9e8819e096caa33f"];
["504b0304140000000000000021005dcbce7e48010000480100000b00140062655f657870732e6e70790100100048010000000000004801000000000000934e554d5059010076007b276465736372273a"; "20273c6638272c2027666f727472616e5f6f72646572273a2046616c73652c20277368617065273a202832352c292c207d20202020202020202020202020202020202020202020202020202020202020"; "202020202020202020202020202020202020202020202020202020200ad89636a12e7e0141a4493facf83ae740fc1bf45d0031e3400cb65285b810d240fbef37667aa4b640e0bec0c145a9b240c149d2"; "778992a940f5d134ab472a8740fecaa605297186401fd60ecc020473406bb0a06ad20c64404ae3810a0b3b5e407c2873733cd5474089aead6f3bae43404b333887d8302e40238ef748cbb12d403cb6a2"; "92cf6b1640ec540589cf6b1640b3d4e288cf6b1640635ad05f32e8d03f55d5cf5f32e8d03f94bfce5f32e8d03f71c667c278cad03f8ead280cf1fabf3f53ec4f27eec1b03f"];
["504b0304140000000000000021003a9bc10588000000880000000c00140062655f6e756d5f732e6e70790100100088000000000000008800000000000000934e554d5059010076007b27646573637227"; "3a20273c6938272c2027666f727472616e5f6f72646572273a2046616c73652c20277368617065273a2028292c207d202020202020202020202020202020202020202020202020202020202020202020"; "20202020202020202020202020202020202020202020202020202020200a1900000000000000"];
["504b0304140000000000000021003ab1356688000000880000000c00140062655f6e756d5f702e6e70790100100088000000000000008800000000000000934e554d5059010076007b27646573637227"; "3a20273c6938272c2027666f727472616e5f6f72646572273a2046616c73652c20277368617065273a2028292c207d202020202020202020202020202020202020202020202020202020202020202020"; "20202020202020202020202020202020202020202020202020202020200a0000000000000000"];
["504b03041400000000000000210053a4f9dac0010000c00100000c001400625f636f656666732e6e707901001000c001000000000000c001000000000000934e554d5059010076007b27646573637227"; "3a20273c6638272c2027666f727472616e5f6f72646572273a2046616c73652c20277368617065273a202834302c292c207d202020202020202020202020202020202020202020202020202020202020"; "20202020202020202020202020202020202020202020202020202020200af89cd1f6f1e29e3e2208dec33f71a83e715f25a075759f3ef134184a8b56d13ef67010157429f33e3f814d1262280a3fe6d0"; "8f7b8310003f7edfda689c97303f161b70f6027c503ff20fbd0fed37663f7e12a7844634743f7111b08443f6853f8c77bb09d66c993fcd418cdb6d59ab3fdb98682685d1b93f66a7ecf60524c43f0f9d"; "9dd85173c93f752650e4045ac93fec50fed244fcc23fee108521d8c2b93f1b61a049f77ccb3fc029fcf4e7e6d43fd9705016997dd73f57a111314301d33f227b3378707ac93f6776a46af0b4773f704b"; "61b5e815963ffb6230168d59a73fdc24e15ba3b4b73f1bd49aab8e7dc43ff9c624ba6d6bcb3f79947dfeaff6cc3faf23a4e5cebcc63fa8c70572557db13fe7771973ca5fca3fb611c92ee109d83f6d8f"; "7d2a6a69dc3f1bcb96d01cd4d73f8c5fe7d9d390c63fba01dbc379e07d3f"];
["504b030414000000000000002100a20c5ea6c0010000c00100000a001400625f657870732e6e707901001000c001000000000000c001000000000000934e554d5059010076007b276465736372273a20"; "273c6638272c2027666f727472616e5f6f72646572273a2046616c73652c20277368617065273a202834302c292c207d2020202020202020202020202020202020202020202020202020202020202020"; "2020202020202020202020202020202020202020202020202020200a5af4c8430b99e7405797efc7e07de740aa68988554ceb540ab304a1632a9b54045a2ce7cfda0b5400b903c224498b5402aed68cf"; "80ae8940005ec716edb3884039bca221c7898840ce346318c75c884056e541fb2d2886401ae550536f736e4075626bd563046040180afbdc77815140c6544d0627094440ac7f8675c5c137403759d492"; "9fbd2d408c4c8c4d146b23408e31e3b9a8a81b407d4465e2d99ff33f46fc11a96e17e53f99b2f8f012eddb3f6bae27bfd8edd33f78110c487898cf3f428ee3497becbf3f46bff5e8c2408140b7211c8d"; "1e24744064b7938965396440b9cfc21f729456408ec916e36e664940f87495be923a3d4082f5990ddbbd3140e7bed94048b52440fa6ca311b6d11b40ae2bc9ea1ce1f63f9acc30883aefed3f38c37c26"; "d5aae33f27221a6b09b9d73f935b47364ee1cb3f0287f9099b64b53f"];
["504b0304140000000000000021003a9bc10588000000880000000b001400625f6e756d5f732e6e70790100100088000000000000008800000000000000934e554d5059010076007b276465736372273a"; "20273c6938272c2027666f727472616e5f6f72646572273a2046616c73652c20277368617065273a2028292c207d20202020202020202020202020202020202020202020202020202020202020202020"; "202020202020202020202020202020202020202020202020202020200a1900000000000000"];
["504b03041400000000000000210096a315bf88000000880000000b001400625f6e756d5f702e6e70790100100088000000000000008800000000000000934e554d5059010076007b276465736372273a"; "20273c6938272c2027666f727472616e5f6f72646572273a2046616c73652c20277368617065273a2028292c207d20202020202020202020202020202020202020202020202020202020202020202020"; "202020202020202020202020202020202020202020202020202020200a0f00000000000000"];
["504b0304140000000000000021009d5118f8b0010000b00100000c001400635f636f656666732e6e707901001000b001000000000000b001000000000000934e554d5059010076007b27646573637227"; "3a20273c6638272c2027666f727472616e5f6f72646572273a2046616c73652c20277368617065273a202833382c292c207d202020202020202020202020202020202020202020202020202020202020"; "20202020202020202020202020202020202020202020202020202020200a30be5b16e63ab23e3f5256ddcbd29a3e92a01033e838d13e4359cf03d5d2f23e2c214ed25d98093f2474c1c6d04f133fa28e"; "8ff4d662403fe792e5d199a35e3f701f935efb88733fdfc8ba4958d9813f45ba6fb08c41923f794389d71448a43f57b7cfdfec4ab43f85d6aa54d93ac13fb2cf4dbd6533c83f79aedd52acb3ca3fd9da"; "de94cb5fc73fecb8bca0516db93fff186df08debcc3f5341d7c1d927d83fe1f42fac6ea7dd3f612b622fa7d2db3f77d7d3f8c0e9d33f00ee17ef98ed8d3f3e297db00bed9e3fb505c40aa46db23f6d01"; "47f187c9c03f7e1b23546e1ac93fe966d205aa74ce3f101b1be4ac9cca3ff9b66b484dcdc03ffa6bb055346bc83f09cb406c7b1fda3f1ba555d4d7eee13fe4a49a881b36e03f02f8f2b7a7d8d63fa59c"; "3637fbe5c43f2dc111788ad88a3f"];
["504b03041400000000000000210077fab614b0010000b00100000a001400635f657870732e6e707901001000b001000000000000b001000000000000934e554d5059010076007b276465736372273a20"; "273c6638272c2027666f727472616e5f6f72646572273a2046616c73652c20277368617065273a202833382c292c207d2020202020202020202020202020202020202020202020202020202020202020"; "2020202020202020202020202020202020202020202020202020200ab78f409744f3f1401693e9eb165ec040a382d89cce22c040b69211138d1cc0408deb580f3b16c040d13f5fc093ed90401e3c2550"; "82a59040d957845c638290406d8fd399c132904015333c8d38b88040f006de64ed947040e1d4a8525e886040e6a38c3a129e524046fb936895924540cf0b5b1cb7633a4097bf621c481631406d448b91"; "9a3226405a033d8411de0a40f4adbe99c8b7f33f87c8dd1b17b7e93f0dfe71d7b683e13f2dadda1f1feed73f7062d1ffdd50d23f95ff3521f1d38140ef54f2d6a18573403145aa0f2d3e6540eab9cd8c"; "70b157402ed7ce06120f4b402558df5efc0540405edaf920a907334040e076b98e9f2740bf7e6280d8a30340d4e4e951f5ddfb3f3b4625efb864f13ff5b0baafc9f3e63ff4f69c419a45db3f2f9802b1"; "cc42cd3f145d02b09912c03f"];
["504b03041400000000000000210008894b1088000000880000000b001400635f6e756d5f732e6e70790100100088000000000000008800000000000000934e554d5059010076007b276465736372273a"; "20273c6938272c2027666f727472616e5f6f72646572273a2046616c73652c20277368617065273a2028292c207d20202020202020202020202020202020202020202020202020202020202020202020"; "202020202020202020202020202020202020202020202020202020200a1700000000000000"];
["504b03041400000000000000210096a315bf88000000880000000b001400635f6e756d5f702e6e70790100100088000000000000008800000000000000934e554d5059010076007b276465736372273a"; "20273c6938272c2027666f727472616e5f6f72646572273a2046616c73652c20277368617065273a2028292c207d20202020202020202020202020202020202020202020202020202020202020202020"; "202020202020202020202020202020202020202020202020202020200a0f00000000000000"];
["504b030414000000000000002100760cad94b8010000b80100000c0014006e5f636f656666732e6e707901001000b801000000000000b801000000000000934e554d5059010076007b27646573637227"; "3a20273c6638272c2027666f727472616e5f6f72646572273a2046616c73652c20277368617065273a202833392c292c207d202020202020202020202020202020202020202020202020202020202020"; "20202020202020202020202020202020202020202020202020202020200a9ee0abdcaa51923ec2b9f772a5b9b23e05d6c1ff3267c23e50cd551996fded3eae473cd4373c163f40d1a2739d99343fbae8"; "fd56c1de493f3ad29c7f5933603fa5294fe3c506703f47d0abff5e3b853fca4542d8af189a3f5798384e3749ac3f27ef0eeb0ed9ba3f3cd990c319d4c43fdcfb2d6d6766ca3fadce24e3da6cca3fff88"; "03a7b2cbc43f3d9341c9412fcb3f47e778b0f1dfd83fbba7b5b5de64e13f52734528376ee23f72adaf0528e9dc3f8449bc4081b2d23f10b389ed0ac3723fa1b7889525e87c3fd255b50922ba953f05a6"; "b721ade6a83fbf1af308166eb83f8428b53c746fc53f9c9993f04e33cc3ffb8797082e6fce3f0c3c80a866afc73f5c16e9af6626c03f86c4b4c3575dd83ffe93b98bd7ade33f45c3d50a22abe53f6efc"; "880e3377e13f2aab3270cb16d03f34be3b49895e863f"];
["504b030414000000000000002100e7b3ea11b8010000b80100000a0014006e5f657870732e6e707901001000b801000000000000b801000000000000934e554d5059010076007b276465736372273a20"; "273c6638272c2027666f727472616e5f6f72646572273a2046616c73652c20277368617065273a202833392c292c207d2020202020202020202020202020202020202020202020202020202020202020"; "2020202020202020202020202020202020202020202020202020200a37072f1b70d8ec40cee05f30d6e6eb40077eef899c73eb4060fb901bbb32b2408e7dfbc88412b2406f831c483defb1405c7ed4e6"; "99cab0404279738395d09b404277180a60f38c403f33cf0649f47c40522f718e21826e401a42fbd3b40d614003de7d8760985340849ab4978b584740cebf58c3d5333d40ffa6afa024c732401614cc07"; "b1e72440ea68fec7e17403407b65cb8d90a4f63fecaa7cf791faed3f2a853e402468e43f5142cfbfbf09e03fecec0593566bcf3f41840198b2e3a040175088fe37d78940f55835082b45844058051c9a"; "06977340122b70f25f426640916466cbd1ec5840e0072f6b76c74c40d2b8115a904b4140b3e22e6b5c8a3340fdedf457dc7613400a9b0cd59cc007404a52c0312778fe3fc130ab6552cff33f5ab91a7c"; "de64e73f32a805ca8361db3f0f952b41d3f2c43f"];
["504b03041400000000000000210008894b1088000000880000000b0014006e5f6e756d5f732e6e70790100100088000000000000008800000000000000934e554d5059010076007b276465736372273a"; "20273c6938272c2027666f727472616e5f6f72646572273a2046616c73652c20277368617065273a2028292c207d20202020202020202020202020202020202020202020202020202020202020202020"; "202020202020202020202020202020202020202020202020202020200a1700000000000000"];
["504b03041400000000000000210011808e1a88000000880000000b0014006e5f6e756d5f702e6e70790100100088000000000000008800000000000000934e554d5059010076007b276465736372273a"; "20273c6938272c2027666f727472616e5f6f72646572273a2046616c73652c20277368617065273a2028292c207d20202020202020202020202020202020202020202020202020202020202020202020"; "202020202020202020202020202020202020202020202020202020200a1000000000000000"];
["504b030414000000000000002100f7ebaf07b8010000b80100000c0014006f5f636f656666732e6e707901001000b801000000000000b801000000000000934e554d5059010076007b27646573637227"; "3a20273c6638272c2027666f727472616e5f6f72646572273a2046616c73652c20277368617065273a202833392c292c207d202020202020202020202020202020202020202020202020202020202020"; "20202020202020202020202020202020202020202020202020202020200a7c07ac804bd5613e04886eba017a923edb6513cfa7ccb13e8c0d407742f9c23ec727a4cb3c0bfb3ef6f73ec71387223fa1bb"; "621dae0a403fb8daf3a3071e513f014e7f94f9e3633f526914fa6437793fb84a70131ea88d3f4c8876fe0376a23fb9d7b2c8a3c0b23f89bc3efd2d99c03f0ab9d544f999c73f8cebb7cc5582cb3f3142"; "a4c752a7c83f2d70c705f906c73f81ae764bf22ad63f388505e0d4c6e13f2f766bc75cd9e53f685514d07ca4e43f4e3885a824e3de3f9cb65b3892cb733f85d70dc13d598c3f720691cd8b299a3fe6bc"; "2aa6032eb23f13ab3c802fcebe3fdbfe73fb133dc93fcec88bc064becd3f67188a6fc488cd3f2cb31cc187c1c13f19713004d432d23fa8b67f152fbce23fbb48ffc87802e93f73217154410ae83f4c7e"; "cac54137e13f0c75cb46fe60d03f3ea5ccbcfa73953f"];
["504b030414000000000000002100cb9374feb8010000b80100000a0014006f5f657870732e6e707901001000b801000000000000b801000000000000934e554d5059010076007b276465736372273a20"; "273c6638272c2027666f727472616e5f6f72646572273a2046616c73652c20277368617065273a202833392c292c207d2020202020202020202020202020202020202020202020202020202020202020"; "2020202020202020202020202020202020202020202020202020200aa615cd7c44e02641b9a2d7069c89f2405ed69fe47dfcf14009667ea3b4f1f04023c6ed242c39ba4093a4b5a81ad0b9405ba61cd0"; "0336b94095b5d9dd7f5eae40f477cf6bcad4a040fa7cccfa3cd48a40a8c4636636257d400ffd44f2f0306f4030e4622d04dd6140cef417e9a0c25440b5fe3a6a1d5b494098f439b743ce3f405300b874"; "f96a354079f25e272ebc1640a390b277ebbd0440cda3615a87b4f93f8891090a664cf13fa0963a5baa87e63fafad191e237ee03f0ccb0abad794a540aa14acb340c09040a15db115251785401134470d"; "62c3744004dfa8fd27116740a274e61de6275a408e79ad9fc2ab4e40632fce00de264240075de4ec13f23340f7cda428e6b214404a2487e481da0a4002cda3dad4d800405c6ebe32f97df53fe201106b"; "8d20e83f3fd853be35c6d83fe117a0633a06ca3f"];
["504b03041400000000000000210008894b1088000000880000000b0014006f5f6e756d5f732e6e70790100100088000000000000008800000000000000934e554d5059010076007b276465736372273a"; "20273c6938272c2027666f727472616e5f6f72646572273a2046616c73652c20277368617065273a2028292c207d20202020202020202020202020202020202020202020202020202020202020202020"; "202020202020202020202020202020202020202020202020202020200a1700000000000000"];
["504b03041400000000000000210011808e1a88000000880000000b0014006f5f6e756d5f702e6e70790100100088000000000000008800000000000000934e554d5059010076007b276465736372273a"; "20273c6938272c2027666f727472616e5f6f72646572273a2046616c73652c20277368617065273a2028292c207d20202020202020202020202020202020202020202020202020202020202020202020"; "202020202020202020202020202020202020202020202020202020200a1000000000000000"];
["504b030414000000000000002100af099da0c0010000c00100000c001400665f636f656666732e6e707901001000c001000000000000c001000000000000934e554d5059010076007b27646573637227"; "3a20273c6638272c2027666f727472616e5f6f72646572273a2046616c73652c20277368617065273a202834302c292c207d202020202020202020202020202020202020202020202020202020202020"; "20202020202020202020202020202020202020202020202020202020200a692bec790942b93e681e000e1e25a23e1376c9db3fcbd23e715951cb0eb3f73e418d67eb5080123f45ede23ea97d203f8e55"; "d62f2a3e2a3f9b10582b9e4f433f456c44bab6845a3f13cc51eb8830683f60587bd2db9d823f2a05a42bb52f953fa1456bf0223ea83f4c4f55aa8bc5b73f9950684d526ac33f29007abded1dca3f0947"; "f619810ccc3f88caf82e11a4c83fbe3ba40117ead03f85641dcc8c1bdf3f21745d0a9772e63f5acd22732d74e83f6de0842326e5e43fe331dc3c02d7dc3fd350bcce33a9703fa55c299229f7983fe485"; "a142827aa23f2b0625002b2fb63f291229b5f655c33f2dc6f449fa77cb3feb582c94d1e1cf3f770241c7276acb3f341062d2e419c43f17e01d9b510ade3ff403193695ace83fbb0bd63cb9d1ec3f57dc"; "848806a4e73f7744bbd2b2fade3f65e527297c10cc3f4bf05eb2c497913f"];
["504b0304140000000000000021003369a07ec0010000c00100000a001400665f657870732e6e707901001000c001000000000000c001000000000000934e554d5059010076007b276465736372273a20"; "273c6638272c2027666f727472616e5f6f72646572273a2046616c73652c20277368617065273a202834302c292c207d2020202020202020202020202020202020202020202020202020202020202020"; "2020202020202020202020202020202020202020202020202020200adbbbfb4b068cff40d4e832634cfafe4074ae704bd5a2c440d033faeb9e9cc440a68a947c6698c440e34c21390386c440c56ab030"; "70aec14060e0fae8e820ad409adb9ccdbda6a940df183ea80489a54071a2626604198b40e95df81447457e4049a4a199682c70405a80a2bc999b62405932d84b9ede5540e18d2a5e9a0f4b40c4f565c2"; "12fc404057c3230cec933240de367891e3081340863a1f882718064000689fb451cefc3f40dcad72a183f33fc307b8fef569e93f1751a81e1670e23f1bfb5c10e446aa40c84efb210a399340d88c19e8"; "9be18240143ed4d6a265754054b97527a8b76740bfc26d135d2e5b40c87f8caac1205040765a67b440bf41407e36889c934c254058909077aedf164006bfd11c36cf0d407a8c21055b720240d850c2f7"; "517cf73f79a0905f49bfea3fde6c5673e0d0db3f15468dad3f9acd3f"];
["504b030414000000000000002100a49b6bc988000000880000000b001400665f6e756d5f732e6e70790100100088000000000000008800000000000000934e554d5059010076007b276465736372273a"; "20273c6938272c2027666f727472616e5f6f72646572273a2046616c73652c20277368617065273a2028292c207d20202020202020202020202020202020202020202020202020202020202020202020"; "202020202020202020202020202020202020202020202020202020200a1800000000000000"];
["504b03041400000000000000210011808e1a88000000880000000b001400665f6e756d5f702e6e70790100100088000000000000008800000000000000934e554d5059010076007b276465736372273a"; "20273c6938272c2027666f727472616e5f6f72646572273a2046616c73652c20277368617065273a2028292c207d20202020202020202020202020202020202020202020202020202020202020202020"; "202020202020202020202020202020202020202020202020202020200a1000000000000000"];
["504b030414000000000000002100f7dd9e1cb8010000b80100000d0014006e655f636f656666732e6e707901001000b801000000000000b801000000000000934e554d5059010076007b276465736372"; "273a20273c6638272c2027666f727472616e5f6f72646572273a2046616c73652c20277368617065273a202833392c292c207d2020202020202020202020202020202020202020202020202020202020"; "2020202020202020202020202020202020202020202020202020202020200a1e546ab2bd61973edb769f37ded2d03e1d743b4d47ddf03ec0bfe1574e77033f972cd75e2fdc073f6eeb3eccbdfe353fe5"; "fb6b5437a4553f5f880a1f31ec6c3fdd2055ef13097a3ff78582baec24893f50994fe0fbd39c3f3fc2cb35e887ae3f0422eee6b38bbc3f2ef21ba310c8c53f3adec766e780cb3f9e71dbaf4955cb3f76"; "16e304c288ca3f4c83951583abd83f95d42c6b13a7e43f352a56777fbeea3f2c4c084a8c59ea3f1b2e9ed70da1e43fc3d7b21a8c99da3fcbf7fba420ae7b3fa72e7c7b3c74983f85658cd70fa2aa3f12"; "e0d3bec811ba3f50f568dc719ac63fba4c6a3f472ccd3f42dede41eceecf3fd10fd39a8aa2c73fdf3abde66fdbd23fbeb47dc981f7e43f824cd15c5231ee3fb7d3c0db31e8ee3f1219ba66b9c6e63fd1"; "3944884e40db3fb31bda615be3c73fc1ff8cc7edc78c3f"];
["504b030414000000000000002100a03e19c8b8010000b80100000b0014006e655f657870732e6e707901001000b801000000000000b801000000000000934e554d5059010076007b276465736372273a"; "20273c6638272c2027666f727472616e5f6f72646572273a2046616c73652c20277368617065273a202833392c292c207d20202020202020202020202020202020202020202020202020202020202020"; "202020202020202020202020202020202020202020202020202020200a97294b5bb416dc4050d164fec801dc40041871117f00dc40fae1cf1a11ffdb4051e70016a8e4a440bdb8dfe303dfa440012e49"; "73fadca44012d83db66fdaa44083494f53039da4400c63c829d6918e404e6e06da799a7e404d4c7bfee8f07040b8019a4b1566634053c31187fd4d5740b06ecb6539e44c405540c08775a34240cb0376"; "98e1d3284045418d9cf6db134038905c6ecd4e0840d59458f992060040848038e53fbff53fbfde1c4a4d8cec3febda0c9cf683e43fb101856f2f4e9940094df2a2adfc9340a24cf423f90d8340135e82"; "fd4a077640b7ba0ba6d5876840f12beb9337905c40ed2ccd916dcd5040f65aace13d58424036b7773e9c2f24405aa52b0d59e81840a8dda1830a02104001c97edf9bec034095ed7f277d33f93f21014c"; "cc1359ed3f84f561ad714bdf3fbe4ec7c748edd03f"];
["504b03041400000000000000210008894b1088000000880000000c0014006e655f6e756d5f732e6e70790100100088000000000000008800000000000000934e554d5059010076007b27646573637227"; "3a20273c6938272c2027666f727472616e5f6f72646572273a2046616c73652c20277368617065273a2028292c207d202020202020202020202020202020202020202020202020202020202020202020"; "20202020202020202020202020202020202020202020202020202020200a1700000000000000"];
["504b03041400000000000000210011808e1a88000000880000000c0014006e655f6e756d5f702e6e70790100100088000000000000008800000000000000934e554d5059010076007b27646573637227"; "3a20273c6938272c2027666f727472616e5f6f72646572273a2046616c73652c20277368617065273a2028292c207d202020202020202020202020202020202020202020202020202020202020202020"; "20202020202020202020202020202020202020202020202020202020200a1000000000000000"];
["504b0304140000000000000021002916bc4ed8010000d80100000d0014006e615f636f656666732e6e707901001000d801000000000000d801000000000000934e554d5059010076007b276465736372"; "273a20273c6638272c2027666f727472616e5f6f72646572273a2046616c73652c20277368617065273a202834332c292c207d2020202020202020202020202020202020202020202020202020202020"; "2020202020202020202020202020202020202020202020202020202020200a3c61995584764a3e2e77b04bcde2933eb97daef3081ab13eff766af20e66b23e4c47b87b790f003f8d9821470263253f62"; "532a114d2d423f06bce3531ad04f3f337e44e75850643ff146eeb032fa763ff67480348e308c3f1ba06ab4c21aa23f4f0ab7630599b23fd54f6c70eda1c03f5267ffb0d501c83f610b9ea162ffcc3fcd"; "7707c6071fcb3f6da4524236f4d03fae64c3bf0944e03fffe31c58b5c0e83fd1e965306337ec3feb8a9ae09c56e83f05e36defd15ae03f70979d6d18b4ce3f9cdf564c1b88d43ffd93ea675b1fdb3f15"; "1d137e7382bc3ffacbd991653a773f4f8f56b69974893f3c3af5deb2e3993f6758d494ba43b23f75ba9db4edccbe3fa29f1fcc9482c93fd456a97a1fc7ce3fd1839f0a3557d03fb6e837d5ec5cc33fd5"; "aeb26206d7dd3f4c3fb4cae3b1ea3fda529d89e19cf03fcfc18e01e392ec3f542ceccd80cfe13f645c5eeee1a6ce3ffbace0661b8bca3f"];
["504b0304140000000000000021009c9bc1c5d8010000d80100000b0014006e615f657870732e6e707901001000d801000000000000d801000000000000934e554d5059010076007b276465736372273a"; "20273c6638272c2027666f727472616e5f6f72646572273a2046616c73652c20277368617065273a202834332c292c207d20202020202020202020202020202020202020202020202020202020202020"; "202020202020202020202020202020202020202020202020202020200a77785adf1e4d42410b1eb76080b10541c3c11476cba80541d99408f309740541261cb53c3290c840588326868a87c84079c57f"; "27aa78c840dbf0de25f715bd4091e23677c444b040df0fc0c1fd229940bddd4a87a1918b40092133030bf97d40a4313f2d69627140dcfa70907e1264403894baf7e1a8584020c7ee4c3d6d4d40441401"; "2991d343404a63040fcae32240650da1f842b41440764451bd4eb60a40a6c56e4d974102401245d6b3a582f93fbe0c4db0e262f23ff7058ef75240e23f570e2364e37bb63fa2e8ed25548ab23f17aa9b"; "c0d223a53f54c1cb75b270b44054c3f169faf59d407d407f138a6d964089e311d3883c84409f90d0c381a47640d425a7810933694040b3f13b08cd5d40adb9ee4c686450404048fe0780593c40b3d988"; "723f432640c54a66c8f6681b40cbcca2a6667f1140dbb8e8d9a89a06402e247a7e9551fc3fbb89ff6403eaf23fa0cc4f44f1a3c93f"];
["504b030414000000000000002100479ce44788000000880000000c0014006e615f6e756d5f732e6e70790100100088000000000000008800000000000000934e554d5059010076007b27646573637227"; "3a20273c6938272c2027666f727472616e5f6f72646572273a2046616c73652c20277368617065273a2028292c207d202020202020202020202020202020202020202020202020202020202020202020"; "20202020202020202020202020202020202020202020202020202020200a1b00000000000000"];
["504b03041400000000000000210011808e1a88000000880000000c0014006e615f6e756d5f702e6e70790100100088000000000000008800000000000000934e554d5059010076007b27646573637227"; "3a20273c6938272c2027666f727472616e5f6f72646572273a2046616c73652c20277368617065273a2028292c207d202020202020202020202020202020202020202020202020202020202020202020"; "20202020202020202020202020202020202020202020202020202020200a1000000000000000"];
["504b030414000000000000002100f1542f82d8010000d80100000d0014006d675f636f656666732e6e707901001000d801000000000000d801000000000000934e554d5059010076007b276465736372"; "273a20273c6638272c2027666f727472616e5f6f72646572273a2046616c73652c20277368617065273a202834332c292c207d2020202020202020202020202020202020202020202020202020202020"; "2020202020202020202020202020202020202020202020202020202020200a6aee576ce901a73e404039f3c6c9b33ed59289b354f8b33ea0c1f2c3354aea3e6a099f67c5330d3f5cb9d2652c482c3fe4"; "60ccb98f5a423f85381602e7f5543f8754aca77db2643f2e3f31d52251803ff63ad954704a923f047cfd71064aa63fa1ee8bc9613cb63f5b988e42a5c1c23fce3d92896a04ca3f4cddcd6d202dcd3f02"; "b1d128bdf6cb3f1593fb76d3a6d63f3d4bd4fb6346e43f2f20db05aaceeb3fbd333c391434ec3f933e8659b397e53ff8ea64bbd5f5d73fc5c7f6de79ecd63fa01061ca4adedf3ffb0e152921a7de3f90"; "f42d035875bf3fa108186d053a733f973d416b09a5973f7bc4b6ec157f9e3fcc39f0ae989ab53ff3974a229431c23f241b08c13f58cb3ff34e0a821956d03fdd3efb828ce4cd3f1922f16236cacd3f98"; "97dfc688c2e33fd1b443049f41ef3f964cc5a97bf1f03f27cec21b201de93f0f1e7314fdeed93fac9e060a29c1d13fb40c62dfd950dd3f"];
["504b030414000000000000002100275aa5bfd8010000d80100000b0014006d675f657870732e6e707901001000d801000000000000d801000000000000934e554d5059010076007b276465736372273a"; "20273c6638272c2027666f727472616e5f6f72646572273a2046616c73652c20277368617065273a202834332c292c207d20202020202020202020202020202020202020202020202020202020202020"; "202020202020202020202020202020202020202020202020202020200a7495e2eebf6f0e4158942841e1360e41b4fa293a37e9cf40e304ec273b02cf40c61fe85a26e6ce40370637d1d7c9ce40bec8ec"; "e33cb3cd40a3af80b534c4b64041945118d641b440845ff3f9901c9a4098b316d68be48c4047a3223dd6cc7e40c470e8075be971405da2f5c2d7ee6440d2fb1a4939e15940bea4d96e48dd4f40ddd16a"; "094e473f40749c0da1d3b62240722d0865d72c16404412cc2ab8910d406c342ca9c8d204406add31fe581dfe3fc4281a1a0e36f23f2adf29f2cab3cf3fb7e9f4a2ba46bc3fd283d81d8f30bb3f2c43bd"; "48fd5eae3f2b37fc8505d8b9406557e4b649c4a140d160a387a24c93406cda8def82c98440a1446846fc037740899eccc4942a6a4014bf7e0abcdd5e40d31acfd69fd55040ccd62fe94b073440797202"; "37a5d4264085fa8c2fd4ae1d40f43211cb8b2313407339deec61f108400e95a6f9c0c2ff3f0e84e27d526ddb3f12cb91256e41ce3f"];
["504b030414000000000000002100479ce44788000000880000000c0014006d675f6e756d5f732e6e70790100100088000000000000008800000000000000934e554d5059010076007b27646573637227"; "3a20273c6938272c2027666f727472616e5f6f72646572273a2046616c73652c20277368617065273a2028292c207d202020202020202020202020202020202020202020202020202020202020202020"; "20202020202020202020202020202020202020202020202020202020200a1b00000000000000"];
["504b03041400000000000000210011808e1a88000000880000000c0014006d675f6e756d5f702e6e70790100100088000000000000008800000000000000934e554d5059010076007b27646573637227"; "3a20273c6938272c2027666f727472616e5f6f72646572273a2046616c73652c20277368617065273a2028292c207d202020202020202020202020202020202020202020202020202020202020202020"; "20202020202020202020202020202020202020202020202020202020200a1000000000000000"];
["504b0304140000000000000021004643396bf0010000f00100000d001400616c5f636f656666732e6e707901001000f001000000000000f001000000000000934e554d5059010076007b276465736372"; "273a20273c6638272c2027666f727472616e5f6f72646572273a2046616c73652c20277368617065273a202834362c292c207d2020202020202020202020202020202020202020202020202020202020"; "2020202020202020202020202020202020202020202020202020202020200ada55bf64c2e1703eb3a3278b626d973edf6111a0cd8eb23e6ef2a9a3739d893e509799c99d3eee3e571046cf2358153f1d"; "e7e941913c333f9c7cd4948096463f04a3174966a25c3f92cc092a8d31673fdab7bc0bae5d833f7bd39e4bbc35973f5aaa7b5c7d6baa3f7b8d4578bdc8b93fd1b5e6d73ba4c43ff62c5e2ed173cb3f81"; "1b0ef9b3facc3f5f5b072b1cbdce3f33fb4586462fdd3f91f7c4f0322be83f6940320876c0ed3fa0190fae6e48eb3fa4948037d7fce13f8363424ec1e0d53fce03a2e39749df3fbb51c3c983eade3f42"; "9e7f10abdadb3fdf29e52d7a40753f517aa8e81f777d3f43afa0088ebe993fa80e5f5e9631a53f5aa9768df1d6b73f3844fed257fec43fb9388734e5c8cc3f81207437a6bcd03fc8ff99bbeb27cb3fea"; "8ad3a6f979d63fd5e6cb5f95bfe83f5348912aa976f13f8ef6d6b29c39f03f86b4fd6bb0bee53f6cf9c66e4b56c53f98725763e7f8e03f553c8dcfdab6e33ff53d946f2c1ad93fa3ecf662ef2b8b3f"];
["504b03041400000000000000210030f7bdeff0010000f00100000b001400616c5f657870732e6e707901001000f001000000000000f001000000000000934e554d5059010076007b276465736372273a"; "20273c6638272c2027666f727472616e5f6f72646572273a2046616c73652c20277368617065273a202834362c292c207d20202020202020202020202020202020202020202020202020202020202020"; "202020202020202020202020202020202020202020202020202020200aaf1a18847c09134102c257fe290813412fef27a1b30713410ccb54cd0bf112416c22dba259e6d040b1b072e342e5d040a923a0"; "3bd9e3d0407ea1315fa1c9d0404c1551e72f44b940bc2fc91fbf25b240a93e8df285519a4064a5daeb66938c40d85c50e2eabb7f400df6f2c2f05972406d4640b1d4e365405d2aaff681045b4021e468"; "d6e10b5140fc22ba74970f374090bbfa227a36234080866411e2081840dabf73fbb64b1040ac66b5395387074052ff9d268caf0240d0f57545243fdd3fd0cffccc8fb4cf3ff4be9c4068fdc63ffb74e3"; "b7afc4b43f23654b6eb77cbe405cddccfc4f53a3405041db9063eea2407220b434ec8a9140b0f49211123685401652298a4669774012838e3019156b400d3d3622d5b75f40c92dd6ac5fe75040c7e0c5"; "a1f385334077379c6af1512840174696837aa71f40c47e5a0319cf1440f841d8d830080a40d4dd41d6f19400401bb4d2e6e8bee03fdf5a23408d3dd33f45dcffef6b99c53f57cda0b7505caa3f"];
["504b030414000000000000002100479ce44788000000880000000c001400616c5f6e756d5f732e6e70790100100088000000000000008800000000000000934e554d5059010076007b27646573637227"; "3a20273c6938272c2027666f727472616e5f6f72646572273a2046616c73652c20277368617065273a2028292c207d202020202020202020202020202020202020202020202020202020202020202020"; "20202020202020202020202020202020202020202020202020202020200a1b00000000000000"];
["504b030414000000000000002100f287019488000000880000000c001400616c5f6e756d5f702e6e70790100100088000000000000008800000000000000934e554d5059010076007b27646573637227"; "3a20273c6938272c2027666f727472616e5f6f72646572273a2046616c73652c20277368617065273a2028292c207d202020202020202020202020202020202020202020202020202020202020202020"; "20202020202020202020202020202020202020202020202020202020200a1300000000000000"];
["504b030414000000000000002100a69790a8f0010000f00100000d00140073695f636f656666732e6e707901001000f001000000000000f001000000000000934e554d5059010076007b276465736372"; "273a20273c6638272c2027666f727472616e5f6f72646572273a2046616c73652c20277368617065273a202834362c292c207d2020202020202020202020202020202020202020202020202020202020"; "2020202020202020202020202020202020202020202020202020202020200ab7d616be5654733e13ae6219b18e993e16ca13a8308bb33e588de4564d07b63e28124ee4a389f83e17972e9b2d71203ff3"; "4b664c1a603c3f9369d7254ed14b3f2c27ce9bc238623f59a9fcaae5886e3fd3f5fc6a1f98863fbdd408714a989c3fb1b39604cf08af3fe0da93322263bd3f3ee0a2bb8465c63f6cd78fde5ad9cc3fa7"; "d9ba4a6ebdcc3f0e910582f372d23fe7f8d9ccfecbe13fa68c6a52e620eb3f8bc7ba378f28ee3fc44078246199e83f5a3d677f5237d83ffffdc9c7c877df3fc5ef62669dd5e33f2b1ff070f362e13f58"; "a5c7e612bed93fc63a354ed47e7a3f441bef955e7d823fc04f226e79dd9a3f1c95531415fdab3f3e64b9714fccba3f51cf04097090c73f3327c2eb99f7cd3f1ad1d3a35e47d13fbb638da1041cc73f7b"; "b62909a893df3f7feb2b5bfe39ed3fa805d4d1fe4bf23f79dceb24e0b0ed3fee882233f8d7df3fb1b2f300eb41de3f0bb3df89f1d3e53f339539f065afe73f63ad11f597cdd63f938d4da3d525923f"];
["504b03041400000000000000210076912948f0010000f00100000b00140073695f657870732e6e707901001000f001000000000000f001000000000000934e554d5059010076007b276465736372273a"; "20273c6638272c2027666f727472616e5f6f72646572273a2046616c73652c20277368617065273a202834362c292c207d20202020202020202020202020202020202020202020202020202020202020"; "202020202020202020202020202020202020202020202020202020200a09e28e6d5c161741174a708157151741753acfadfd141741b39737927a93d2404a09f44dbd8fd240b6957b47288fd240c021d9"; "d1438ed240af752356532ed240bb13c3b66da5bc4080598d181a3da44025f68948b4df9a40bc269ace28608c40a0b7ff20175380409edb96b062d47240afa7d96323f0664003a12debf5775b40cfe693"; "dfb7705240fcb78109eeda324074562bf90ad52340c3d087d3f7301a405af00213766512400579df0cad020c4004327266b5230340b3ab1aefafb4da3f4947a82afd7ed13ffa68f1372376cc3f7882b5"; "a369f3bb3f832723bfbd5bc140758afe77d4b5a540d6e43fcb4fdba440132c817c09359240c483e3bd75d3854029c9c02785d2774052985f2d5d0a6c40f4962c1a01645f40215557849a404e40c543af"; "393b6f3540c3332b49b3c52940de3480b9e9622140d787ff787c41164033bb6d1020900e40ee3d04b4c5d7e93f572942cce80ce23f249b37c75e28d53f63ec747f5423c83f5fef4c913864b33f"];
["504b030414000000000000002100479ce44788000000880000000c00140073695f6e756d5f732e6e70790100100088000000000000008800000000000000934e554d5059010076007b27646573637227"; "3a20273c6938272c2027666f727472616e5f6f72646572273a2046616c73652c20277368617065273a2028292c207d202020202020202020202020202020202020202020202020202020202020202020"; "20202020202020202020202020202020202020202020202020202020200a1b00000000000000"];
["504b030414000000000000002100f287019488000000880000000c00140073695f6e756d5f702e6e70790100100088000000000000008800000000000000934e554d5059010076007b27646573637227"; "3a20273c6938272c2027666f727472616e5f6f72646572273a2046616c73652c20277368617065273a2028292c207d202020202020202020202020202020202020202020202020202020202020202020"; "20202020202020202020202020202020202020202020202020202020200a1300000000000000"];
["504b030414000000000000002100d9905955f0010000f00100000c001400705f636f656666732e6e707901001000f001000000000000f001000000000000934e554d5059010076007b27646573637227"; "3a20273c6638272c2027666f727472616e5f6f72646572273a2046616c73652c20277368617065273a202834362c292c207d202020202020202020202020202020202020202020202020202020202020"; "20202020202020202020202020202020202020202020202020202020200a8ec0537a3898233e7e7a82a6a50b733e773af24a6605963e5b93c70442bdb03e749e17e05b8cc83ef168d540f67d063f3012"; "c65477ea2c3f043b3ef2e900483fe0d3818f0ecb4d3f7fe765db965c643fba5ea36bc37c733ff5b237e04a478a3fb7e0e0c53e48a13f1b910ef9502ab23fba4dfdfb1679c03f7e5ae922976dc83f55fa"; "5b32d107ce3f54b5680a2f1ece3f9323e61f0898d63fd6041fb32b23e53fe20a2cd71a9bed3f32b86dfcd248ee3febcdfb834276e53f1957c594e6b7d83f703d38e0a9e4e43fc3809161ef33e83f4508"; "2042c9ffe33f457af065f5847a3fc6618a56f72c873fff2208ce76b59b3fd02b427ebaa9b13fe9e17834dfabbe3f4ca88b58127ac93f0bc3debf1627d03ffadf94269c29d13fedecea88c41bcb3f7db6"; "3b132713e43f4273f279bce6f03f0ea2f0bf1857f23f3ff23d0383d3eb3fe499d18b641bce3f14d8d0fb8e93e93f99515b6eea5ced3f389fefe45be9ea3fd50f303ab769da3f9b25ec1ce016a33f"];
["504b030414000000000000002100c78aa63ff0010000f00100000a001400705f657870732e6e707901001000f001000000000000f001000000000000934e554d5059010076007b276465736372273a20"; "273c6638272c2027666f727472616e5f6f72646572273a2046616c73652c20277368617065273a202834362c292c207d2020202020202020202020202020202020202020202020202020202020202020"; "2020202020202020202020202020202020202020202020202020200a805ca03bb61668416ecc1a329eb01c41f37864c648b01c4121d536b80fb01c41bc60c8faaee9d64076bfc44b9de8d640164d88b7"; "65e8d6408430d64bfee7d640d41d1db85449c640de22031d77fbbf4098e6ab653f53a54065dff196d61e9a401251735a6c9d8c4015b4b96e51ca804099db35668d4f734082d09118ebc6674069af61af"; "f31e5c401cd9803293ac5040acac365dc0c93140f31ab5d6dace2440f6e6e66131d01b4015dbc9f8c87d1440949fe577bc1d1140835f3e9c4b05e63f8c8e8f690d11d93f02d7b02c664ed33f1bafd9a5"; "c1f9cd3f3fcf40ee5653c3404dded1e9a64ea940ec266e08f923a740e947ca7ece629340d5cd99fe422d864080f24c183059784053951806c2d56c402ba7421283935e404ab6d4fcf226454035f01335"; "df8e35405e3683d04c7d2b40f0249e5cd573224088ec3d3e70bb1640823fe35efc3d1240807807e18232ee3f3e727427a7ade43fc08337e23394d83fdd4efdf0214fc93fdc515f67ea07bc3f"];
["504b030414000000000000002100479ce44788000000880000000b001400705f6e756d5f732e6e70790100100088000000000000008800000000000000934e554d5059010076007b276465736372273a"; "20273c6938272c2027666f727472616e5f6f72646572273a2046616c73652c20277368617065273a2028292c207d20202020202020202020202020202020202020202020202020202020202020202020"; "202020202020202020202020202020202020202020202020202020200a1b00000000000000"];
["504b030414000000000000002100f287019488000000880000000b001400705f6e756d5f702e6e70790100100088000000000000008800000000000000934e554d5059010076007b276465736372273a"; "20273c6938272c2027666f727472616e5f6f72646572273a2046616c73652c20277368617065273a2028292c207d20202020202020202020202020202020202020202020202020202020202020202020"; "202020202020202020202020202020202020202020202020202020200a1300000000000000"];
["504b0304140000000000000021009e5fc8b9f0010000f00100000c001400735f636f656666732e6e707901001000f001000000000000f001000000000000934e554d5059010076007b27646573637227"; "3a20273c6638272c2027666f727472616e5f6f72646572273a2046616c73652c20277368617065273a202834362c292c207d202020202020202020202020202020202020202020202020202020202020"; "20202020202020202020202020202020202020202020202020202020200a0e463fb8dbd2213e736d378aebeb743e29f4be7447ce953e7353c6375556ae3e581e3265f42dd53e68bb4ef8a4bb0a3f8ade"; "84b26a07303f4366c5eab905493f893572be6f1c533fe60918aea8a4653fcdcfe0735285783f18556fff469e8e3f35dd18e53f6ea43fb24cecd28eb7b43f2e26f421cc1dc23f9f52472988cdc93f64ea"; "718f5d3ece3fb16907acdce5ce3f763f55978492db3fed1ba4d4ad14e83fcd04c1d8dbe1ee3fc9255147a3ccec3f22029351e3b1e03f7b43a5b4e794e13f2e63433b6c1ee93fbb5b3849bdf6e93f2a37"; "bc8622e4e33f2cdbb9861d84793f03b69874f2b18f3f2d91d680368c9b3fbe454375778fb53f78659f9409ffc03fb9a68097d453cb3fe1aacf687d89d03f0ae4e124d244d03ffebfa855ce62d33f4d01"; "618b34c2e73f1c828874c34ef23ff6e8fb762c80f13f9e3dc7d91c4be73f93e4a55c5a38df3fe09237fa180af03ffae4de9aad65f03f2e576b7d318be83fdb11cdf321fbd73f4e91431e9c13a23f"];
["504b030414000000000000002100c739b5eff0010000f00100000a001400735f657870732e6e707901001000f001000000000000f001000000000000934e554d5059010076007b276465736372273a20"; "273c6638272c2027666f727472616e5f6f72646572273a2046616c73652c20277368617065273a202834362c292c207d2020202020202020202020202020202020202020202020202020202020202020"; "2020202020202020202020202020202020202020202020202020200a485a4b68322c6c41301d96779a082141f4d50c61250821418d990d38cc07214196deb65271fdd9400391024fc8fbd9401791d689"; "3dfbd9402afe80d5baf9d940f540eabee874c3402cbf8522133bc240dcb1533b5fcba740cb1f7922e3c798409cb46c255d448d4000672f937b2f81409d074b7ea90a7440568918733fc868403a7651a4"; "81dc5d40694bc29c27154b4081977324860632406fd1d05277732640743b5b10d83e1e40920b3232c97a17406e06b342dc6f134028f85ab4f813e63f8e189a689608dd3f355a61b911a8d53f1fd3257c"; "594dd03f7295f064043dc6409e7d329aed16ae40e2cd410372a2a84068e2d0f63e979440e0aa91671d6c8640c3a8627bd541794020d5f6e649906d40dca300f94a1f604032003cfba8454340fe1b5332"; "02ec3540e706a726e6ef2d40720f48e849132340b56c342b76221a4098dbaceda8c7f33f2b07e2257d0ff13ff6850932cf9be53f63d82d385a74db3f9004af9b318dcc3faf6ca996a7aabf3f"];
["504b030414000000000000002100479ce44788000000880000000b001400735f6e756d5f732e6e70790100100088000000000000008800000000000000934e554d5059010076007b276465736372273a"; "20273c6938272c2027666f727472616e5f6f72646572273a2046616c73652c20277368617065273a2028292c207d20202020202020202020202020202020202020202020202020202020202020202020"; "202020202020202020202020202020202020202020202020202020200a1b00000000000000"];
["504b030414000000000000002100f287019488000000880000000b001400735f6e756d5f702e6e70790100100088000000000000008800000000000000934e554d5059010076007b276465736372273a"; "20273c6938272c2027666f727472616e5f6f72646572273a2046616c73652c20277368617065273a2028292c207d20202020202020202020202020202020202020202020202020202020202020202020"; "202020202020202020202020202020202020202020202020202020200a1300000000000000"];
["504b0304140000000000000021006e58ca62f0010000f00100000d001400636c5f636f656666732e6e707901001000f001000000000000f001000000000000934e554d5059010076007b276465736372"; "273a20273c6638272c2027666f727472616e5f6f72646572273a2046616c73652c20277368617065273a202834362c292c207d2020202020202020202020202020202020202020202020202020202020"; "2020202020202020202020202020202020202020202020202020202020200a942f3ab64895613e55eeffd63bd2873e1939109b389ba23ee8206a30c1b6973e00012fca7e06e53e4e3fa42b5c140f3f8d"; "ff413985092d3f8bffebc16666423f9bc669bec142573f5d4314f534df663fa366cd313623803ffaace921a36d923f5856dfb31d5ba73fe39752f5c048b73f86e862135c8bc33f9ceb6c832c2ccb3f2d"; "dcfd5fa734ce3fd83fa8fb828dd13f9a4565a722d4e03fd24cc483aa46eb3fee07f8c2dd4cf03f5772be7f55feea3f10a6013d892ad03f43c1ec408fe3e63feea045e24c50ee3f34c1425d64f9ea3f14"; "567eced698e63f6c42864e78a1753f3ca01d22bbbd6f3fd7cf0613f6c4993fa91a1d867ce49d3f62df769b5f6bb73ffaa8bb7fdb01c33f2440ff8baa72cc3f8d114dbfcf39d13f21cd2ffd39e7cd3f26"; "e0b162a8add93fdf5b6fe838c5ec3fb46bdc70bc50f33fc5d359e0ccdbf13fcdff221daaece03fb8eb876d77b2ea3f36b42e6d3089f43f7ae119e3ed64f53fa9a21f800f27e33f29b6339e1053923f"];
["504b0304140000000000000021004db450a5f0010000f00100000b001400636c5f657870732e6e707901001000f001000000000000f001000000000000934e554d5059010076007b276465736372273a"; "20273c6638272c2027666f727472616e5f6f72646572273a2046616c73652c20277368617065273a202834362c292c207d20202020202020202020202020202020202020202020202020202020202020"; "202020202020202020202020202020202020202020202020202020200a198592f444012541cbf12c2445002541ccd7b603e5ff2441243f50ecf6fc24414e9ec46b27f0df40c21f50998eefdf403951ad"; "2fe0eedf4072561cab55e9df40dc54225e626bc54079e9a21f5d1bc5408a6b4aa2fb1aa940a77cba761bae9a402e95884ed7d38d405762c10fe4838140c929ea1df7ac74408318634d1a646940bf9c59"; "9d9ed55f4027538e936ea445407c0bc6f9d56e324080542636257c2740accb0b7691a62040e3bd8a80fc311d40ca5fe059b1fbf13fcea01302c114e33fb82186ce6d98e03f3b8e9884e25ed93fe81b9a"; "931129ca3f6277c5908864ca408b95d72e3a62b140a8b9d8c8c21fb1407ca7300f37cea240d787daad1d879440520a958a3c8886400edc9f30a7e27940fea8151cb0d46d4062535311fbf05f40d3976d"; "fdf77243406eead3fdf8783640e3a2f9266f19304003037656e08222404dbe6c8aa18120403944b92ff861f73f13a227cd8f44f33f79c708ce9957e63f2fa558dc9dd0d83fad8b334b4ef7c03f"];
["504b030414000000000000002100479ce44788000000880000000c001400636c5f6e756d5f732e6e70790100100088000000000000008800000000000000934e554d5059010076007b27646573637227"; "3a20273c6938272c2027666f727472616e5f6f72646572273a2046616c73652c20277368617065273a2028292c207d202020202020202020202020202020202020202020202020202020202020202020"; "20202020202020202020202020202020202020202020202020202020200a1b00000000000000"];
["504b030414000000000000002100f287019488000000880000000c001400636c5f6e756d5f702e6e70790100100088000000000000008800000000000000934e554d5059010076007b27646573637227"; "3a20273c6938272c2027666f727472616e5f6f72646572273a2046616c73652c20277368617065273a2028292c207d202020202020202020202020202020202020202020202020202020202020202020"; "20202020202020202020202020202020202020202020202020202020200a1300000000000000"];
["504b0304140000000000000021000c5f9700e8010000e80100000d00140061725f636f656666732e6e707901001000e801000000000000e801000000000000934e554d5059010076007b276465736372"; "273a20273c6638272c2027666f727472616e5f6f72646572273a2046616c73652c20277368617065273a202834352c292c207d2020202020202020202020202020202020202020202020202020202020"; "2020202020202020202020202020202020202020202020202020202020200a547e85a26a3d6c3e310a51c70ad08e3eaab35b0b9069a43e1c975f8cd4f2b83e00298a0cbeaef43e6d90284098bf1b3f6e"; "3339864718383fa6c4eeeddc74483ff3cec60ed18b5d3ffdb988578c00613f3d304d0fca40823fc0822d8f4b4d963fccb4cb00d00baa3f22f6f61d21ebb93f8f0183cec1c0c43f64140bafe1cccc3fee"; "77707c6c7cce3f82d7852e995cd43f9f8328ae94f2e33f67a50fb1e48eed3f5e4c344a2961f03fa6267117a8b6e73fb9297874e190dc3fd2ad16b5440ced3f99c490035234f23f3a222be670cbef3f31"; "01443ca72c793f76067807d609813ff4fbbcdde65d9d3f136b6dc2ca99a43f44f85753dbfab73f747ec5c66b87c53f2e8a370ff9cacc3f94ed9671f29ed23f0038b84c31a3ca3f8e0866122230e03f01"; "9b0f8b3714f13f2fb18dcfb1b4f23f29b8ec809b30f13f9a8c09e6779abf3f0915c7580031f43f04f5c8a67e4bf93fa506121d4ac4f73f2fa3f52c0286e53f942a91c39631af3f"];
["504b0304140000000000000021000a861aa9e8010000e80100000b00140061725f657870732e6e707901001000e801000000000000e801000000000000934e554d5059010076007b276465736372273a"; "20273c6638272c2027666f727472616e5f6f72646572273a2046616c73652c20277368617065273a202834352c292c207d20202020202020202020202020202020202020202020202020202020202020"; "202020202020202020202020202020202020202020202020202020200a6ef0fdce57302b413d2596aa40302b41f2bfd3d434302b419cafbdd265f3e04067b3942431f3e0407f27ffc322f3e04070dd0f"; "200df3e040966d140b95ede040c70f27642e38ca40a5db9ddbacf3bc40eaec60ea6d8ca8404d0a6c2b4cf59a40dd11eed833818e407f181203d3bb81409a381494af5c75400dfdfb748a1669407c4b98"; "d6a7596140953097a83e3f434012ce733f82923340db2093fce4642840087c01bd73c722408fa57709196521403a55c73bb8f3ec3f0fd5cc6e6bf2e33f881fa5d393f3e03fb4eae4b9a127db3f594b65"; "600f11cf40ca5984914648b24057e4827bb43ab240a9bdd336e942a040d633239bddf7944093b92bb430848640b9cf13f19e8a7a40a3c9046802286d40abad8d1fa6e35a4060b52f13d98f4240e9aaf6"; "38014f38409e9ef4d25d432f401681dd62e4582440a27b000318472340019937b165f0fb3f07c3f25c36d8f53fa75059385a23e83ff2d0a452b550d63f6773cc7821bfc73f"];
["504b030414000000000000002100d99c4e8b88000000880000000c00140061725f6e756d5f732e6e70790100100088000000000000008800000000000000934e554d5059010076007b27646573637227"; "3a20273c6938272c2027666f727472616e5f6f72646572273a2046616c73652c20277368617065273a2028292c207d202020202020202020202020202020202020202020202020202020202020202020"; "20202020202020202020202020202020202020202020202020202020200a1a00000000000000"];
["504b030414000000000000002100f287019488000000880000000c00140061725f6e756d5f702e6e70790100100088000000000000008800000000000000934e554d5059010076007b27646573637227"; "3a20273c6938272c2027666f727472616e5f6f72646572273a2046616c73652c20277368617065273a2028292c207d202020202020202020202020202020202020202020202020202020202020202020"; "20202020202020202020202020202020202020202020202020202020200a1300000000000000"];
["504b030414000000000000002100633a578400020000000200000c0014006b5f636f656666732e6e70790100100000020000000000000002000000000000934e554d5059010076007b27646573637227"; "3a20273c6638272c2027666f727472616e5f6f72646572273a2046616c73652c20277368617065273a202834382c292c207d202020202020202020202020202020202020202020202020202020202020"; "20202020202020202020202020202020202020202020202020202020200a0ab3e7fef354713ee08933be2685923e57256f324f21a83e88b105e00602c23e5fc6ff5f1003fc3ea95e99950467223f04bc"; "e667395a3f3fa9443ed1044a4c3fff81482370d7613fae1c9bcaddd5683f26263b38d102853fe7a732889b119a3ff8e6ad8e6984ad3fee7ea059e788bc3f9f9ed841c148c63f259dcc7b0dd5cd3f3758"; "0e04b93dcf3fd65ef3b49aedd63fa7da5fc32ffde53f12551fd16debee3f18730510132def3fd11b331465aee23fcbe635e7425ae23f7f101733f69aed3f3bf6b882d123ef3fcb1f82847b46e73f49db"; "af5f7934d73f5fbdb2de8408e73f37d9a6d2d436bb3f68f1d87851d97d3fed411209798a833fb6e417d5d2089f3f8c9acf5ba5c1a83f8699d51d7a86ba3f431b4ba09934c73ff2d93ffeaa7cce3fb7d2"; "6e4340a3d23f2602210c9c19cd3fa1f075f11cb2e33f552ee1e95339f23f0a09aa4ddc10f33f8a2435db7570ec3f89402764541ae33fb0be80b2b70bf73f62d40d20de45f73fd217c6b77c57f03f6ddc"; "54745e24db3f2f8080a8174ed13f"];
["504b0304140000000000000021005b67389500020000000200000a0014006b5f657870732e6e70790100100000020000000000000002000000000000934e554d5059010076007b276465736372273a20"; "273c6638272c2027666f727472616e5f6f72646572273a2046616c73652c20277368617065273a202834382c292c207d2020202020202020202020202020202020202020202020202020202020202020"; "2020202020202020202020202020202020202020202020202020200a6cae31a35ec82b4197377a014cc82b41e3c1769842c82b419ab17eccc575e140ddfd7f33a275e140135325a29775e140c8375ba6"; "8675e14002aa06b5ca67e14071e60d58d356cb40dd12eeec8980b040636d2b097530a940c9a012acaa029b407354eb3c8f2e8f409a35b0973a11824094a3d6a8b00a76401528049920a36940ac756e95"; "4490604088e4efc64c53414079a35bf437533440b8d1aad938722a400591d37cd62f2640202a5cbd6d4b24402c5e10747f10f03f68d24ca3e6bfe83f86420639ac36e43f3b59aa6138cde03f58b7e859"; "c4b2d13f9ee3b5dd647faa3fdc1a63ca90949e3fd6edfa44a23dd040d45e0a7ce13eb340e7bbfc421f23b340a04e98c7c4a6a04024c8cee901539540cdfc056974e28640a586680383267b401f720afc"; "3e3d6d4083879a747ab756406f061ad4c1ac424057e8b06602703a400284436637d12e40eddb6aded44228401f29b7ddeae900407dff6f82004600400c44274e712ff73fab72be3b4216ef3f36a2fcfe"; "d8ede43f22678dcb1d9dbd3f"];
["504b030414000000000000002100c0958b8188000000880000000b0014006b5f6e756d5f732e6e70790100100088000000000000008800000000000000934e554d5059010076007b276465736372273a"; "20273c6938272c2027666f727472616e5f6f72646572273a2046616c73652c20277368617065273a2028292c207d20202020202020202020202020202020202020202020202020202020202020202020"; "202020202020202020202020202020202020202020202020202020200a1d00000000000000"];
["504b030414000000000000002100f287019488000000880000000b0014006b5f6e756d5f702e6e70790100100088000000000000008800000000000000934e554d5059010076007b276465736372273a"; "20273c6938272c2027666f727472616e5f6f72646572273a2046616c73652c20277368617065273a2028292c207d20202020202020202020202020202020202020202020202020202020202020202020"; "202020202020202020202020202020202020202020202020202020200a1300000000000000"];
["504b0304140000000000000021009e98af3b00020000000200000d00140063615f636f656666732e6e70790100100000020000000000000002000000000000934e554d5059010076007b276465736372"; "273a20273c6638272c2027666f727472616e5f6f72646572273a2046616c73652c20277368617065273a202834382c292c207d2020202020202020202020202020202020202020202020202020202020"; "2020202020202020202020202020202020202020202020202020202020200a616b9a304ad5713ec48b01961296903e1695b277b730a33eecbacfd1145bd53e1d2582b7928e0c3fe400bec6b6ff313f35"; "3f6b216f854d3f43707e0a32c64a3f364ff2512b34633f7a83fbaba5336e3f4d57d27876e5863fec0fc3164b309e3f480defdd33a0b03f49a9d55a1534bf3ff7fcb1d95404c83fdc04f2507879ce3f3e"; "5b5e933f51d03f97f060b7dfafda3f64d2005202dce73f92a11d7f283df03f33557622e4b1ed3f69a40af35ff6cb3f2e4c24d7ac74e63fec96e4e3df93ef3f2d8fb7a5d255ed3f9a7c340a8f20e33fb3"; "cba22ee073e13feb900203d0f4e53f96ef3969b468c73f796fabd5057a7d3f24cc6f674b8e863f13da13792b9e9f3f117e930ca37bae3f278c6389012bbd3f7ea5bc391ec2c83ff64c59fa496ed03fe0"; "2c6883d1c9d13f085b8b92466bd03f2ac569c7544ae83fba472d097b23f23fa7dc91597ce2f43f5a8dd050a677e73f6a14f9f49f16ef3f482844f17fc4fb3f5de8fcdafc7cf73f8a2c14cd0016ec3fd5"; "4b97ea81aedb3fbf4859615098e03f"];
["504b0304140000000000000021002a4e52b700020000000200000b00140063615f657870732e6e70790100100000020000000000000002000000000000934e554d5059010076007b276465736372273a"; "20273c6638272c2027666f727472616e5f6f72646572273a2046616c73652c20277368617065273a202834382c292c207d20202020202020202020202020202020202020202020202020202020202020"; "202020202020202020202020202020202020202020202020202020200a7184f4b2fa1c3141ed65030df71c31412498c60cf51c31410489a3854063e4401181770c3e63e4406411ac1d3d63e44075afaa"; "543b63e440fa6aec700b6fd04005502035b6fccd40d6179a8d9366b0408d19528494d6a840bbfd8e67b2ee9a40a5ac70a8efb58f405efaa5cf40678240c2bd8336e78476402e1316cb9ffc6a40ea0c63"; "5aaaea5c40da3629d3f7e640403a9a4293e83e3440d8136196b09f2c40448522bf98ce2a40d1f53714803b2740cd25684ddb58f03f8049a547f654eb3f494fb11a9adbe73fe12283e0208fe23ff3550c"; "85d9e1c33ff84980ea8bb9b13f217448d1a659a63fce460f55aabcd1401ca7366a4658b540ea35afa8e920b5400e976b03afb2a140d9ce01e1778895409dec5fc57b6b8740af8a082fcb527b409e7fa8"; "adae626d40830b5cc16a805440018e27cf38bf4340b227c03e4eac3c40382d4b4396862f40bc97e97500832e407ca69360759903404da5e136980103404c23a0987f8ef93fcb8f13254e59f23f13b936"; "f9a98cca3fd88999c17451be3f"];
["504b030414000000000000002100c0958b8188000000880000000c00140063615f6e756d5f732e6e70790100100088000000000000008800000000000000934e554d5059010076007b27646573637227"; "3a20273c6938272c2027666f727472616e5f6f72646572273a2046616c73652c20277368617065273a2028292c207d202020202020202020202020202020202020202020202020202020202020202020"; "20202020202020202020202020202020202020202020202020202020200a1d00000000000000"];
["504b030414000000000000002100f287019488000000880000000c00140063615f6e756d5f702e6e70790100100088000000000000008800000000000000934e554d5059010076007b27646573637227"; "3a20273c6938272c2027666f727472616e5f6f72646572273a2046616c73652c20277368617065273a2028292c207d202020202020202020202020202020202020202020202020202020202020202020"; "20202020202020202020202020202020202020202020202020202020200a1300000000000000"];
["504b030414000000000000002100fb9d188510020000100200000d00140073635f636f656666732e6e70790100100010020000000000001002000000000000934e554d5059010076007b276465736372"; "273a20273c6638272c2027666f727472616e5f6f72646572273a2046616c73652c20277368617065273a202835302c292c207d2020202020202020202020202020202020202020202020202020202020"; "2020202020202020202020202020202020202020202020202020202020200a08415f573dac703e2eaf218e27c48c3e4ec669b3d6419c3e0a8b339d97f49e3e39dd0259c58ee23e1aa02de367130d3f2a"; "48131784622c3f9a4abfd3f44e433f372de0428ebc493fab2f0319a95a5e3fe39050656299703ff02db8f806ad883f03f8ec6b144fa13f82229f63da90b23f427de40a82d5c03f97830c4b7494c93f11"; "8e1b977ce4ce3fe6abadc1ccdcd13fb71bc8744f2bdf3f95e1e9efeafae93f04e476be02aef03f4a7f27e91a0cec3fc3221b6ca745d63f21f0a72f9606ea3f7a8b5a2a138ef03fc3c9d743742ded3f60"; "8afe8f280ee53ffef55421a179e33f769d409f53c2e43f4715d02c4495c53f172564999016613f4e98224b5b89773fbc2dc888d4108a3ff1fda1da2b219e3fab9503a722b9b23f2bc012712ee1bf3fe3"; "7e2de79fe9c93ff280ad618f88d13fb4bdeada0ad4d03f1f11c358ceadd33fae36ddb28a3aec3f4e4e8089d218f23fb4c413c12ae7f43f49bdc883c35ee13fc178cdb40fb8f43fb2b2d9dccbb2fe3ffe"; "101689796ef73f43a3658b37c6e73fd7fa52af9baee03f6d2bde41016ee03f"];
["504b03041400000000000000210027ad5af710020000100200000b00140073635f657870732e6e70790100100010020000000000001002000000000000934e554d5059010076007b276465736372273a"; "20273c6638272c2027666f727472616e5f6f72646572273a2046616c73652c20277368617065273a202835302c292c207d20202020202020202020202020202020202020202020202020202020202020"; "202020202020202020202020202020202020202020202020202020200ac24bb9391eac3541cbb57aa81dac35413e383d441dac3541648e7d56cb0fe640e9a4499dc40fe64088d622fdc20fe640f52707"; "8cc10fe640c56a5932be0fe640b51623e63df3e540b70a4c8d0380d140a3137570d5c1b14085a7dd45d688a640175bf89743269b40dc56504c2034904038ca9a5c18cd8240f4ccdb11cee5764043119e"; "3d839e6c40ca711f1ac0295940c578184d44b841403819ce45cb833440d089b437fb3b2f40ab0a2e2baae62d406ab014238d26f73f4df98cf2493cf23fd92e88c2b7f9ee3fae72125a3d22e93f7a982c"; "397128dc3fadff910f66d2c53fec595aa4c27bb33f02f446b4ea79a83f75cc7790e6ecd440bac36852ddecd440f408a16d89ebb840f900ea845a67b840bc8cb2a7af3da340b460497e60959540860b71"; "6017f9874025b0545202797b40bfd3a55522996c40048beea101bd5140c8eefb17571c45406a0dfe7a3a2c3d40aec838bf07713140e25b7e1eb6403140854f37cc6e1f0640cc71f75f05480540b5672f"; "a0c16cfa3f78ea287af79ef33f16229f69ed63ce3f96aa37dccfbec03f"];
["504b0304140000000000000021002392040f88000000880000000c00140073635f6e756d5f732e6e70790100100088000000000000008800000000000000934e554d5059010076007b27646573637227"; "3a20273c6938272c2027666f727472616e5f6f72646572273a2046616c73652c20277368617065273a2028292c207d202020202020202020202020202020202020202020202020202020202020202020"; "20202020202020202020202020202020202020202020202020202020200a1e00000000000000"];
["504b030414000000000000002100eb8ec49e88000000880000000c00140073635f6e756d5f702e6e70790100100088000000000000008800000000000000934e554d5059010076007b27646573637227"; "3a20273c6938272c2027666f727472616e5f6f72646572273a2046616c73652c20277368617065273a2028292c207d202020202020202020202020202020202020202020202020202020202020202020"; "20202020202020202020202020202020202020202020202020202020200a1400000000000000"];
["504b030414000000000000002100f84463bd10020000100200000d00140074695f636f656666732e6e70790100100010020000000000001002000000000000934e554d5059010076007b276465736372"; "273a20273c6638272c2027666f727472616e5f6f72646572273a2046616c73652c20277368617065273a202835302c292c207d2020202020202020202020202020202020202020202020202020202020"; "2020202020202020202020202020202020202020202020202020202020200a2448c6ca61b8723e29d1179ba693913e3a65aec1ff3fa33eba84407cdb2ea03ec9b5d731beece53e7d4502a1bb29113f9b"; "f1316be0b4303fd3b4016e46a3463f1dc2ec356d564b3ff81ca6746001613f260149be3358733f9e3f2f53b02c8c3f839bc4391f70a33fe45fec028b63b43f835070f00ee4c13f6c4293ed4ba5ca3fc3"; "9f27d52ed2ce3f7e425fb6e179d33feace0255fc78e23fee281233f941ed3f8df87e186b48f13f95f7c3d84d67ea3f6d4d3b9184f6e03f8a6b5d0cbd37f03fd908efd2a3d0f23fa6e1e3671cfaee3ffe"; "4da7dc45e6e93fb2b0f600983ee43f4dc7babc165ce43fcd33cf2bb09fc33fc321a15c888f633ff7931d89ec7c793f5aad8f64b4c28d3f0161b108622aa03f29c63ed2aeeab43f3056fa154046c13f7e"; "b980f84fcfca3f018778c01c19d23fc2160c954853cf3f477c15f736c8d93fe957e34e5274f03f37acb6052097f33f283f6bc90a92f33f19cbde924a05bf3f6e775783d125f83faaca9e427d0fff3f73"; "54f08e0ebbf83fa6a2c3f5f360e43f1cabfda4e325e03f0644f3b91a28e03f"];
["504b0304140000000000000021009ffbfa9010020000100200000b00140074695f657870732e6e70790100100010020000000000001002000000000000934e554d5059010076007b276465736372273a"; "20273c6638272c2027666f727472616e5f6f72646572273a2046616c73652c20277368617065273a202835302c292c207d20202020202020202020202020202020202020202020202020202020202020"; "202020202020202020202020202020202020202020202020202020200a4ebbc0356da034411e9db76c6ca034418dd6fbeb6ba03441f236d3497cd2e6400dc8646771d2e6403892d73e6fd2e640e6f69b"; "586dd2e6409d0645d468d2e6403b95a2cc6649e6406f2ffe0dbed4d140f212c5eec2a3b240026e27321e84a6405121d1086a969b408c609293cf8c90402b00252890478340d8b961057a607740b473f1"; "1838886e40c521234f5e155640e063f363d81d42407121ea715c4636404b34d4e2ea903140b10225e5185b3040324e4ab61345f93fa5b297961c27f53f32e7b027ea9df23f5759d8b7c6b2ea3faef85b"; "f86f2ddb3f4f9643cbe157c73f5960d1a7dfbcb43f257e4c7f19f4a93fab1a59017c90d5404173dccc6d90d5405c1d149861e5b940e1d69eb38324b9403d8e6e2f9dbda3406df50e43a0d095404664d0"; "529f758840bed1075102c67b4082cfba90f8f36b40223a2c6ef7004f408eb7b32029bc4540d9c4becfd3c439401ef6d19215d43240e339708d1e200d40e2a68dd6e6040a406974d74329720640fa1050"; "a14b10fc3f6c2a1af2ff52f23f2da689434dbed03f24c0c9a40b41c23f"];
["504b0304140000000000000021002392040f88000000880000000c00140074695f6e756d5f732e6e70790100100088000000000000008800000000000000934e554d5059010076007b27646573637227"; "3a20273c6938272c2027666f727472616e5f6f72646572273a2046616c73652c20277368617065273a2028292c207d202020202020202020202020202020202020202020202020202020202020202020"; "20202020202020202020202020202020202020202020202020202020200a1e00000000000000"];
["504b030414000000000000002100eb8ec49e88000000880000000c00140074695f6e756d5f702e6e70790100100088000000000000008800000000000000934e554d5059010076007b27646573637227"; "3a20273c6938272c2027666f727472616e5f6f72646572273a2046616c73652c20277368617065273a2028292c207d202020202020202020202020202020202020202020202020202020202020202020"; "20202020202020202020202020202020202020202020202020202020200a1400000000000000"];
["504b030414000000000000002100e74156ed10020000100200000c001400765f636f656666732e6e70790100100010020000000000001002000000000000934e554d5059010076007b27646573637227"; "3a20273c6638272c2027666f727472616e5f6f72646572273a2046616c73652c20277368617065273a202835302c292c207d202020202020202020202020202020202020202020202020202020202020"; "20202020202020202020202020202020202020202020202020202020200ac0344207be73623ecc700cef637a843e9624756d386c9b3e742b30f70bbea23e57bb740e5a4bef3eda5dfe1ea875173f19e2"; "e6c6e639363fa8bd49f306314d3f9964d985e8d1503f2dcc9266b8f5603f7376f5788418763f7f3d53c0a77a8f3ff732ecedbfbfa53f82cca16ba555b63f220ba10d6604c33f3d41d30d4ba6cb3faf30"; "6bb6e725cf3f0d259dadb51dd43f83abdf1a689ee33f6715c46bd310ee3f9ea1e1b439bff03f11459dd4c8c8e63f134d45628b06e63fad6e1e3d7404f33fc4bf6bbf1adaf43f10e3b80f1309f03fad3a"; "bf44982ce83f76ff71264100e43ffc8998fada3ae33f9cbdcd245024c23f74da7c0ab021683ff14f24bb231b733f529cf81a395e933f6d0e8c20b3039d3fbbf43e8e5d32b83f9ce4f7a4d6adc23f79e0"; "6c5da2d3cb3f252ee47e0475d23fae663c7e51bdce3f915df50a3c2dde3f49cfbfd023fbf03fce593bb169f6f33fdc11610e9266f13f78ab95b465fbe33f36e8d913bc04fc3f97e53dbcc651fe3f8297"; "bd03aa5ef83faec8314b3eb3e23f934bb2c6112be13ffc182bc6fddbde3f"];
["504b0304140000000000000021003d8f13b610020000100200000a001400765f657870732e6e70790100100010020000000000001002000000000000934e554d5059010076007b276465736372273a20"; "273c6638272c2027666f727472616e5f6f72646572273a2046616c73652c20277368617065273a202835302c292c207d2020202020202020202020202020202020202020202020202020202020202020"; "2020202020202020202020202020202020202020202020202020200a5a422481e3933c41e5592d35e2933c41fa8c697fe1933c411e76e1f9cebdeb4022c54e8fc3bdeb40f97dcc26c2bdeb40ae8d10b7"; "c0bdeb40f52fc114bbbdeb409069bfce4ab9d44059b32c2dd76cd44042b722c4b941b54080846099f843a54028aac02a58ec9b401a581bb1c4df9040c44e4f3a29cf83401f9d6eca97e67740eb52086b"; "833c6f4006d69aa65c5a54402fac6ba15cbc4240860c3844df6b3740f1770944ce6b33406be1481a36d73140ab0b4c4e1712fd3f6b31ac3adc93f63fa787cd098104f43f0f2f1736c41ff03f25d38c92"; "9c00db3fc5b606f0560fc83f95b7f72ce8dbb53fd6ed6d9e2b4eab3f4305c8f87b83d84062b7e2916b83d840a3ca1a3489d7bd40e09eca253996bb40bc3a10495c13a540d034fa58ecfb9540cf1d8d3e"; "ff0689401e95c746e73f7c40c9b31909ea526b4030e1309cdf4c50400acd69178a7647406ae55e7184603b40f6429f8b93463540d45104406bc40e40dc8fde2b0bd10d4008afc6ba18040640303bfe13"; "27e1fb3f69006c87d2ecec3f0e19093cd220d23f06cc635b533fc33f"];
["504b0304140000000000000021002392040f88000000880000000b001400765f6e756d5f732e6e70790100100088000000000000008800000000000000934e554d5059010076007b276465736372273a"; "20273c6938272c2027666f727472616e5f6f72646572273a2046616c73652c20277368617065273a2028292c207d20202020202020202020202020202020202020202020202020202020202020202020"; "202020202020202020202020202020202020202020202020202020200a1e00000000000000"];
["504b030414000000000000002100eb8ec49e88000000880000000b001400765f6e756d5f702e6e70790100100088000000000000008800000000000000934e554d5059010076007b276465736372273a"; "20273c6938272c2027666f727472616e5f6f72646572273a2046616c73652c20277368617065273a2028292c207d20202020202020202020202020202020202020202020202020202020202020202020"; "202020202020202020202020202020202020202020202020202020200a1400000000000000"];
["504b030414000000000000002100b44a431c10020000100200000d00140063725f636f656666732e6e70790100100010020000000000001002000000000000934e554d5059010076007b276465736372"; "273a20273c6638272c2027666f727472616e5f6f72646572273a2046616c73652c20277368617065273a202835302c292c207d2020202020202020202020202020202020202020202020202020202020"; "2020202020202020202020202020202020202020202020202020202020200afd6452ff2d9bf33ea21913ea0da3fd3eb097c008da07873ed775fcf76eb3ca3eac615b9915c9f53e9a2995a9c7f6153fec"; "b99b189f1f2f3fb5798691c4ed3d3f21b6851fafc34e3ffa4112fee9705e3f6cfe057a96c0793f17f07f07d4be913f86d7b5aab826a83feba5356aea33b83fd815016b5c2fc43fe503aa290197cc3f1e"; "4f6e3d8e95cf3fbf747821eca4d53ff34200b313fee43f5e27f6e8170fef3f412760786c46f03f4282c73d9fbce13f85f749be2c98ec3f2be1976c763ef63f10a6dd7efbd8f73fbadc4933baa7f23f8f"; "a4f901dface93f89b011f7efc0e43f6f02780aaf90e23f1e5c99cf9a28b83f1ab82293848e443f368c4e248dd06f3f7894aebcab93733f2ed4596e7913983f9a01a28163999d3f61e181a6e4d0ba3f05"; "c6510c4bd9c33fe34c73d3c12ccd3f759f961c0ea7d23f1e06a377fc84ce3fbf609569f0b0e13f3ebeccb0ca81f13f1146d710bf71f43f0f88ae84caa6ee3f2655285c8df2ed3f8b2e59bd460a0040ac"; "82626e83bdff3f97ee7ac46b63f83f490e4289b82ee83f08b8d37040d1db3f"];
["504b03041400000000000000210023c22e0b10020000100200000b00140063725f657870732e6e70790100100010020000000000001002000000000000934e554d5059010076007b276465736372273a"; "20273c6638272c2027666f727472616e5f6f72646572273a2046616c73652c20277368617065273a202835302c292c207d20202020202020202020202020202020202020202020202020202020202020"; "202020202020202020202020202020202020202020202020202020200ac7e5e88e635e11414cbe713b635e1141fd49bb8bc700f340bac4a08904d4f2401e91e4b70eccf240e6aad9c879c6f240af0b2c"; "63ccbdf2406a1aa18cc17af24083aaae31abffd4400b8441fa95bcd44062bf8760a89ab64092194f777d4ca540b543dda667679c40569be7a9eb229140cd445ddeb9478440c5bb6790595b7840ec6041"; "7c4d736f40fa1dfb2ce12e524040e9abf2890e434026bdfdee7d483940646866d16c343540fc5b03053acf31409f6b8b930bb401404beb29b81c37f93f910af75bf145f43fdd6757b9f98aed3f26c257"; "0f7080df3f14b72e72b8bcc43fba55cb192a69b83f4ca9719271efaa3fc0319fe3186cf6405a9f518fb2fad9406acd652368fad940c25d4028f9d9bf40d2d464901e14bb40bd0719791666a5405018fb"; "ca5830964002a6d4ffb2768940bd6cfd43f0747c40733c2dcbb1566a409fdc0a3e48a6514050c87088309048401a11d8912d493d40d17343e9756f3740549b3c36be21114078431f3a01451040f3c0a0"; "ce0978054076a8bbfada3cfb3f7bea453306f4e93f80b9c0700168d63f"];
["504b0304140000000000000021002392040f88000000880000000c00140063725f6e756d5f732e6e70790100100088000000000000008800000000000000934e554d5059010076007b27646573637227"; "3a20273c6938272c2027666f727472616e5f6f72646572273a2046616c73652c20277368617065273a2028292c207d202020202020202020202020202020202020202020202020202020202020202020"; "20202020202020202020202020202020202020202020202020202020200a1e00000000000000"];
["504b030414000000000000002100eb8ec49e88000000880000000c00140063725f6e756d5f702e6e70790100100088000000000000008800000000000000934e554d5059010076007b27646573637227"; "3a20273c6938272c2027666f727472616e5f6f72646572273a2046616c73652c20277368617065273a2028292c207d202020202020202020202020202020202020202020202020202020202020202020"; "20202020202020202020202020202020202020202020202020202020200a1400000000000000"];
["504b0304140000000000000021001bec507610020000100200000d0014006d6e5f636f656666732e6e70790100100010020000000000001002000000000000934e554d5059010076007b276465736372"; "273a20273c6638272c2027666f727472616e5f6f72646572273a2046616c73652c20277368617065273a202835302c292c207d2020202020202020202020202020202020202020202020202020202020"; "2020202020202020202020202020202020202020202020202020202020200a5c13dc912bc4903e3984e1978bd48d3e9612a32e8ac89b3e055bd73981dfdc3ee8bc944c4c03073f6c84179662dd263f44"; "b904d8c3e93f3f4d757c9331764d3f94b60193db855b3f077119d40e5f613f6c661bf63075803f9b2dacce4fa4943f6d1a742d58baa93f04ea631c00dbb93f9dd31dabac30c53f1f4773c98776cd3fdd"; "b2d9252922d03fcb28ea73156ad83f2022c1958731e73f70adac6422aaf03f3a943ddd1772f03f11e558d62073d63f2da62d932b81f03ff8ca6ad611bff73f0b993a2146cbf73f380967499b78f13f6d"; "c6eaa61b63e83f92971595141ce73fea5db293a54fe53f5ab48080a2c8c33f32df7d7ea3ba593fc03e5f43867b7a3f39828e7385f9833fd90f6b9883c0a13f2ed05c8c9f2ba33f8bc72dd8e42fb93fd6"; "625340ee81c53fa7c7409e133bce3f2df9f28378f0d23f05ad1c8d0dcece3f6e497e868fa1e53fb7beea1dc0a4f23f0c1d9ce1d910f63f7b6867f4c3daeb3fe447cde0963df33fdabed30eb09c014091"; "6d50681a480040976c4ab5d81bf63f03d313ac12b1e33f86cec5b2dab8e23f"];
["504b030414000000000000002100c19c8bc710020000100200000b0014006d6e5f657870732e6e70790100100010020000000000001002000000000000934e554d5059010076007b276465736372273a"; "20273c6638272c2027666f727472616e5f6f72646572273a2046616c73652c20277368617065273a202835302c292c207d20202020202020202020202020202020202020202020202020202020202020"; "202020202020202020202020202020202020202020202020202020200a40fc7d85526f43411a794b75526f43410313e9d45e28f040db2bf9935e28f04095a1097f5e28f0402b96506d5e28f0400bd47c"; "4a5e28f040c0587ab65728f040c09c07bc3adbd9404bd01f646978b840114b0027d901b640aa4e8a2ef8c3a840d5b874b6fdde9c40803af8ecf51291401198e02e1da8844074245ab2837b784002ba64"; "0355f86e40e818962a3ea35040253314834f234340427a65163c833a400e382477766e3740dbc066e294ca0f40816c79eb804c0240c8ba6c323364fb3fd54ef4c95e9df53fd86e69ff7424f03fc74360"; "34d441d93f4a26becde3f6c03fe6c72e4dba51ba3f12ecc964f970ae3f45a5cf9d8d22de40a00324e28c22de40e698187cbb1ec140efbf7b2de01dc1402e9cefbaa68fad405094ef408582a440e29c9f"; "d642ef9540f2562e68d9c28940f71e148a36377c407edac41ad54d6840c3aa832ce1ab5240583d734c95a14940fdbb79baf1ce3d40b3264ff5e8a63a401493cd18f2d81240738d1e21a47f11404d6d1e"; "54879b06403094ff1cec2ffd3f06b8bc0dbf98ea3fb668e4425950d23f"];
["504b0304140000000000000021002392040f88000000880000000c0014006d6e5f6e756d5f732e6e70790100100088000000000000008800000000000000934e554d5059010076007b27646573637227"; "3a20273c6938272c2027666f727472616e5f6f72646572273a2046616c73652c20277368617065273a2028292c207d202020202020202020202020202020202020202020202020202020202020202020"; "20202020202020202020202020202020202020202020202020202020200a1e00000000000000"];
["504b030414000000000000002100eb8ec49e88000000880000000c0014006d6e5f6e756d5f702e6e70790100100088000000000000008800000000000000934e554d5059010076007b27646573637227"; "3a20273c6938272c2027666f727472616e5f6f72646572273a2046616c73652c20277368617065273a2028292c207d202020202020202020202020202020202020202020202020202020202020202020"; "20202020202020202020202020202020202020202020202020202020200a1400000000000000"];
["504b0304140000000000000021003eaa536c18020000180200000d00140066655f636f656666732e6e70790100100018020000000000001802000000000000934e554d5059010076007b276465736372"; "273a20273c6638272c2027666f727472616e5f6f72646572273a2046616c73652c20277368617065273a202835312c292c207d2020202020202020202020202020202020202020202020202020202020"; "2020202020202020202020202020202020202020202020202020202020200a4d891a8424ef783ea252c360536a8f3ed75268387dd5913e43c892f919779f3e0e0e06a7672fe03e9352b1471cbf093fe8"; "4bb0b51185293f154f897c7ebf413fecf4de7f272c503fb286ec3ccf6a5e3f97196f004ada643f2d985051567d823f75fcd6c64a26973f23248c852247ac3f5390fa967da8bb3fdeabf168b577c63f3c"; "6233fbab2fce3fe32b0f7ba887d03fad69271ded43da3fdd311278dd15e83ff60ec45b2eb0f03ff93ebcabca0cef3fff3dce554490e23f989d77affdd0f33fe2300c43e544fa3f226934e18dd3f83f24"; "b679414ff6f13ff1942ac7a8a3e83fd1789dee32b2e63fd5266e71712ce43f7e51b2638d97c23fb79e09f79ff45c3fc244c84d5ac97c3f20aa6efc419b863ff3728b0cd737a33f079b27337bb8a53f0a"; "f9b1663b67bb3f7065192a5d71c63ff4f1b0c4a413d03f05e2c6ece7b0d23fd3c9d62c203dce3f0e1585bc0e81e83f2e4832b21b94f23f52fa87c347d7f53fd862cf60cd7de63f8fbc84e19f74f73fc2"; "51e2c3e47f02402cb4756265e30040e85becd6f1a1f43f8a8468803748e43fb7d24b399f01e33f"];
["504b030414000000000000002100291975af18020000180200000b00140066655f657870732e6e70790100100018020000000000001802000000000000934e554d5059010076007b276465736372273a"; "20273c6638272c2027666f727472616e5f6f72646572273a2046616c73652c20277368617065273a202835312c292c207d20202020202020202020202020202020202020202020202020202020202020"; "202020202020202020202020202020202020202020202020202020200a09be8d13669e42412f163508669e42411da5fdfd659e4241477cfc5bf173f04040f18d0df173f04005c567f4f073f04073ae2a"; "dff073f040a14148b5f073f040966198f0e773f0400a9230bb3c5cda4088840a96fb9ab840cccb1af9b950b640ef00c285e4d4a8408adee67b6a759d402819657ce73d91407741ea8a9f0885403c48c4"; "3794fc7840e32ab0b792076e40530dc46ec65c5040091e70257f4d4340efcff423ee143c40e8108aa0ff3d3940d7b6af5172f80d40db4fbbdf451b044094a7b6af0af8fe3f763fff348605f73f38ee42"; "50afadef3fa6e17644ce72d93f5c48769860c7c13ff89c2a9dbaa9bb3f34cfa939cff2af3f7d3de334b6bade40c8495d4eb5bade400b47978a7d77c140e73d2a5e4476c1401df0da5ee28cad4009e86e"; "6de5b2a4404b3eb37a6a0796401830cb2520118a40dad68ff3d9a77b40b3686b46ec5d66409e22e11ab9d65340534cb6c67ede4a403fbc0fbcc2ea3f401194fa9c5c9b3d40c78af61c68a415400dca41"; "94f74e124018e12311f70c0740ff686176494bfd3f26bf50c8319dea3fd8d1f5e7a14dd33f"];
["504b030414000000000000002100bd92aec388000000880000000c00140066655f6e756d5f732e6e70790100100088000000000000008800000000000000934e554d5059010076007b27646573637227"; "3a20273c6938272c2027666f727472616e5f6f72646572273a2046616c73652c20277368617065273a2028292c207d202020202020202020202020202020202020202020202020202020202020202020"; "20202020202020202020202020202020202020202020202020202020200a1f00000000000000"];
["504b030414000000000000002100eb8ec49e88000000880000000c00140066655f6e756d5f702e6e70790100100088000000000000008800000000000000934e554d5059010076007b27646573637227"; "3a20273c6938272c2027666f727472616e5f6f72646572273a2046616c73652c20277368617065273a2028292c207d202020202020202020202020202020202020202020202020202020202020202020"; "20202020202020202020202020202020202020202020202020202020200a1400000000000000"];
["504b0304140000000000000021008e79080e18020000180200000d001400636f5f636f656666732e6e70790100100018020000000000001802000000000000934e554d5059010076007b276465736372"; "273a20273c6638272c2027666f727472616e5f6f72646572273a2046616c73652c20277368617065273a202835312c292c207d2020202020202020202020202020202020202020202020202020202020"; "2020202020202020202020202020202020202020202020202020202020200a59f9cd9d62d4723e1d848a48a015873e36b526f46f478a3ecf89c49682d9a13eac476c8421bee13ec88db84894c30b3fb4"; "56091df4312b3f5770c9c0229e423f0508ca5369f74c3f398dd9f2fd185c3f5adebb864cdd673f06fd4ef8680a833fa6806778fc4d9a3fbf3e643830cdae3f08ff77ac67b4bd3f2fa99f9cffd1c73f21"; "98aa8cfbe2ce3f65125b1e3574d13fc6dd2326301fdd3fcc109e5315abe93f2b6b19aef4e9f03fc814603f9356ed3f903a005489f8e73f41b46b9052eff63f8be4cd5da3b0fc3f31aabc082bbef93f68"; "208c260147f23fe5e7fe1166c4e83fe78fe07b1d2be63fb4709cad7929e33ff65dcf5e3088c13fa2b21888674a603f51d960e6a9fc7a3f39de58a79a05893f49a0153dc34aa23f985b14f6451cab3f08"; "02534daba0bc3fe832beaea9ebc73f11efd54f8bfcd03fc6a292cf8758d23fac6765bd0accd03f68c54a29dd43eb3f95e9f2566d0ef33f1d42939e3f51f53f020c4ff3f006dd3fe9c6cba66256fc3f24"; "6cf1128d9d034017609101b1800140091bf19929bcf33fd301cf3ce45ce43fd9491f03a9dde23f"];
["504b030414000000000000002100e40f03fa18020000180200000b001400636f5f657870732e6e70790100100018020000000000001802000000000000934e554d5059010076007b276465736372273a"; "20273c6638272c2027666f727472616e5f6f72646572273a2046616c73652c20277368617065273a202835312c292c207d20202020202020202020202020202020202020202020202020202020202020"; "202020202020202020202020202020202020202020202020202020200acf0eebdc11cf47414f2dcad211cf4741350d99c911cf47416e78ffb74d98f240352213954d98f24042bf74894d98f2407c9133"; "7f4d98f240a0dc32694d98f240059781353798f24029477aea34b7dd405f917a2d3e7fb94047e468528430b640ba338445327fa840ef809c35e4ed9d40ed2938cde06991405917316d0a618540ee534b"; "88d4b6794024b9605ffa6a6b40dca7a8f9088a504053b50d0e40fe434044d7c2341e443e406bd3a36d66123b406bc88d39051d0f4076c5f0d22a4305402b9782ad90ca00404db410200685f83f3abb51"; "f129d2ef3f0970342b2ad4d93f296d36d74785c23f082791d93cd2bc3f687ed2df3ca5b03f369432615265e140990acb405265e140c734eaaca6a7c340ec35d41900a4c340b74f413d2e00b0406cba89"; "87d41fa540d49750f9b95d9640c3bc50ebf8328a40cc05a08f9eda7a40e8f07750ab8562402cf5fb50d42a5440b6a0381c10a44a406586bcc780db4040e00b1a1649153f4024334438b2981840272317"; "24fa101340ff4900a1ebf90740a5e5bf383a08fd3f44c94c8b77a2ea3fd0c229a38912d43f"];
["504b030414000000000000002100bd92aec388000000880000000c001400636f5f6e756d5f732e6e70790100100088000000000000008800000000000000934e554d5059010076007b27646573637227"; "3a20273c6938272c2027666f727472616e5f6f72646572273a2046616c73652c20277368617065273a2028292c207d202020202020202020202020202020202020202020202020202020202020202020"; "20202020202020202020202020202020202020202020202020202020200a1f00000000000000"];
["504b030414000000000000002100eb8ec49e88000000880000000c001400636f5f6e756d5f702e6e70790100100088000000000000008800000000000000934e554d5059010076007b27646573637227"; "3a20273c6938272c2027666f727472616e5f6f72646572273a2046616c73652c20277368617065273a2028292c207d202020202020202020202020202020202020202020202020202020202020202020"; "20202020202020202020202020202020202020202020202020202020200a1400000000000000"];
["504b030414000000000000002100cfacb60210020000100200000d0014006e695f636f656666732e6e70790100100010020000000000001002000000000000934e554d5059010076007b276465736372"; "273a20273c6638272c2027666f727472616e5f6f72646572273a2046616c73652c20277368617065273a202835302c292c207d2020202020202020202020202020202020202020202020202020202020"; "2020202020202020202020202020202020202020202020202020202020200a10f71a4d7cfa723e2f78b8157b19883e3303f2e8ebb78d3ee8d24179c020a43e0ca6a0949d3ce43ecab64f72b3910f3f4a"; "3216bbdacf2e3f73fe2527e1fb443f1bf9d8fac9914e3f031015e0a9ef5d3f741683a044fe693f76f6148c1e74843f53daa2f371cd9c3f236d2b31be8cb03fe57c5519b865bf3fc95ab6912baec83f4f"; "f1d5ff0e20cf3f0a49693a2033d23fe49537c4c73be03fdeee752bcdd8eb3fb2ddb071c7cef13f0fa9af79b064ed3f8f11bea14c8bec3f307a921bc877f93fcffa75ddb685fe3fbe30d5780142fa3f63"; "581b27a4a3f23f8240d3fe96e5ea3f520f17452e82f03f4f8d5fa492f1bf3fa600896c4c49623fab7ed7c86d037d3f171e2dd141b98b3f09768ae2b979a33fea960d6ce24dae3f0545a39b424fbe3f8f"; "5b86711007c93f7916392d7f5cd13f440ca47142e7d13ff28dad45fe79d43f214156a4f891ed3f3b84d12c3948f43fcff0682176bcf53f266644c09a71df3fd56cb0400990ff3f8e93ae05e910044005"; "a7bc5b50c6014095313828f2fcf23f56deaf74d9c9e33fd6102f6555dce23f"];
["504b030414000000000000002100dffe1baa10020000100200000b0014006e695f657870732e6e70790100100010020000000000001002000000000000934e554d5059010076007b276465736372273a"; "20273c6638272c2027666f727472616e5f6f72646572273a2046616c73652c20277368617065273a202835302c292c207d20202020202020202020202020202020202020202020202020202020202020"; "202020202020202020202020202020202020202020202020202020200ab95df0b2eeb648412b3332abeeb64841269a6ca4eeb6484111b919b99633f3408125279f9633f3401c92c4969633f340c2845a"; "8f9633f340d61c357f9633f3401a27ad937733f340e44fce2663bcde407385f113b6d8b940f07e2ab4f0f3b540fdaf38123c97a84075d7b29acd3d9e408bb89493b7b09140059f6bb6a9d98540508e69"; "8fc6877a4040d422f4e51769404fd8731e4eeb50404c9aca89de424440c2f87de659183f40581259f0ee933b403294892ef963104083c57c029e160640b1784f7279c70140e64aefc8058cf93fd5832e"; "aa4453ef3f61b05c0e5b17d73f2f1ec52acfeabf3fb2ea8114371db13f96ca881059fee140f75265ff58fee140b25769a3b661c4403ebb6eec0c5ec4400f065d1c7376b040d587addbef73a5403c72e5"; "ef52c69640d8b1afb4d6a78a405ea3d62b44337b4060facd52e8e8604054f3f38f18b254405a165bf9de7a4a401feb32924393414001825a3a3cd01d408d88581dc76d1a40171d6ea381051340a157b1"; "3d8d550840c0391860a7f5fa3f3ffec9d3dde4e73fd320cd9284b1d23f"];
["504b0304140000000000000021002392040f88000000880000000c0014006e695f6e756d5f732e6e70790100100088000000000000008800000000000000934e554d5059010076007b27646573637227"; "3a20273c6938272c2027666f727472616e5f6f72646572273a2046616c73652c20277368617065273a2028292c207d202020202020202020202020202020202020202020202020202020202020202020"; "20202020202020202020202020202020202020202020202020202020200a1e00000000000000"];
["504b030414000000000000002100eb8ec49e88000000880000000c0014006e695f6e756d5f702e6e70790100100088000000000000008800000000000000934e554d5059010076007b27646573637227"; "3a20273c6938272c2027666f727472616e5f6f72646572273a2046616c73652c20277368617065273a2028292c207d202020202020202020202020202020202020202020202020202020202020202020"; "20202020202020202020202020202020202020202020202020202020200a1400000000000000"];
["504b03041400000000000000210086fccb9510020000100200000d00140063755f636f656666732e6e70790100100010020000000000001002000000000000934e554d5059010076007b276465736372"; "273a20273c6638272c2027666f727472616e5f6f72646572273a2046616c73652c20277368617065273a202835302c292c207d2020202020202020202020202020202020202020202020202020202020"; "2020202020202020202020202020202020202020202020202020202020200aa16f7abac307723e43af0a42b287883edf379905ae60913ed658ed39feffa53e9c81244de29ee63e91bd967d2e8e113f57"; "1da08f0d0e313fc46734ff3413473fd094a99740694c3f29badb5426df5e3f1636ada4332f6d3f04960e6c398e863f038f55bfa10ea03feb21db2188dab13f607ac9a35298c03fdd5e02e4b46bc93f14"; "6a68d85f5ecf3faae8f8299a99d23fcfd603e92444e13fd54f576c64aaec3f0565c6421d82f13f596f14514ec8ea3fee710fc74f84f13f06f808670176fc3f32643de4ab6a00404d8fe29fce25fc3f3d"; "24e44316d0f33f79e9730dbb3bea3f1faf355e6fe4e53f8cedd041cd64bc3ff2a2f1fd00a5633fffa7f10e7abf7c3fb8a2a02f2b428d3f13ce96e08a40a33f39a92419433cb13fe588789777b6bf3faf"; "ece1ce4d25ca3f8ec6a35b1d7ed13ffaf1e099f3a3d13fead70cab3bd9d73f0e77ec7b8363ee3fcbaa7427429af43fab278fccf0f7f33fd7359249f706ea3ffae015021e6701408b165709f0d2044072"; "77c7b7ba89014014e8d5972da1f43fe2648cf050f3e63f8608e8586f4bdd3f"];
["504b030414000000000000002100c732631c10020000100200000b00140063755f657870732e6e70790100100010020000000000001002000000000000934e554d5059010076007b276465736372273a"; "20273c6638272c2027666f727472616e5f6f72646572273a2046616c73652c20277368617065273a202835302c292c207d20202020202020202020202020202020202020202020202020202020202020"; "202020202020202020202020202020202020202020202020202020200a83c8ce4ce069494154217941e0694941dac82d38e06949419af7293edd62f4408db2e818dd62f4400aa37a0ddd62f44014073b"; "03dd62f4405987e2ebdc62f440606b90bba661f440f972d1d63e45e040fc65bd7719e5bb400a742943d0feb540452848106d38a940aee7863a22df9e40f4a599f5851692409a9a09bd486d8640a0e56b"; "481e247b407b91419892676740f20a5234a66b514065e163fe9e7e4540512bc4f89ea64040f0fa43b3416c3b403f8d4a24a950124090c310d5b868084020263e93664a02404254baae8d5af93f9c604f"; "0b1326f03fa95f0499eca1de3f2f22949ad76ebe3f8ed4c319b942af3f5b99d013b223e340e83f2ff2b123e340d6b008fdcac3c5408f2d890516bbc54053da222f1c5ab140b08f4e04c6a9a54012e98f"; "5ef93b97406bb54d6ce8308b40146fa6a497d17b409d785b455fe360405b539ebffe9f5540648fed673dc54b40451de2c99305434077eeafc6f10320406ed28a0fd4e61b407dde627c0cd51240318b84"; "dfbd600840510dc9b8bfe2fa3fdf33aa8890ffe93fec62ca7b0ef1d43f"];
["504b0304140000000000000021002392040f88000000880000000c00140063755f6e756d5f732e6e70790100100088000000000000008800000000000000934e554d5059010076007b27646573637227"; "3a20273c6938272c2027666f727472616e5f6f72646572273a2046616c73652c20277368617065273a2028292c207d202020202020202020202020202020202020202020202020202020202020202020"; "20202020202020202020202020202020202020202020202020202020200a1e00000000000000"];
["504b030414000000000000002100eb8ec49e88000000880000000c00140063755f6e756d5f702e6e70790100100088000000000000008800000000000000934e554d5059010076007b27646573637227"; "3a20273c6938272c2027666f727472616e5f6f72646572273a2046616c73652c20277368617065273a2028292c207d202020202020202020202020202020202020202020202020202020202020202020"; "20202020202020202020202020202020202020202020202020202020200a1400000000000000"];
["504b0304140000000000000021005a5f008d18020000180200000d0014007a6e5f636f656666732e6e70790100100018020000000000001802000000000000934e554d5059010076007b276465736372"; "273a20273c6638272c2027666f727472616e5f6f72646572273a2046616c73652c20277368617065273a202835312c292c207d2020202020202020202020202020202020202020202020202020202020"; "2020202020202020202020202020202020202020202020202020202020200a849fbeeecd0e9b3ebcdacd93ea2eb93e8e0819eb153ec53ef5ff8342fe1ce23effd447d31bcf003f89357420a5d2143f83"; "16e13dbfba253f185a804693e6373f0fb73a8779f5403faa3f1f1520ad553f70324541be2d6c3f4657505ab54f873f64b48c5f9274a13f7790069b8f0bb33fc416f4ec1773c13f1a74f64b513eca3f83"; "e79e5a5aabcf3fe5aa4a3e6c75d33f830f44f880a0e23f3016dee7d4d7ed3fb7b896c34f48f13f4316bef4e334e63f14cc0dc25e53f43fd864ba8d4317ff3fe727c990c4fb00405eadcec2466efb3f70"; "6f49780cb4f23f662f95a085d5e93f559d9817a299ed3fa4b33820f2d3bb3fecc3691b97454e3f6dffb7b73fdf663faacf3f4cb2477b3f2d9e4871be59903fa0319f12b0b3a23fbebdc0502080b43f32"; "c1416ce096c03f6804b7d98142cb3f0190e70668d0d13fb0db5cf4b057d13fa413986905cfdb3fd0d68bfbe3feef3f0b9244795813f53fccc634e1a542f23ff0a7f8baacc5f13f7e323717018903402e"; "f845e5bb750540ecc6b77f460e014070df4e1d2d8cf23ff2e2ff1e1677e33fff8fdeb65538e23f"];
["504b0304140000000000000021002034424118020000180200000b0014007a6e5f657870732e6e70790100100018020000000000001802000000000000934e554d5059010076007b276465736372273a"; "20273c6638272c2027666f727472616e5f6f72646572273a2046616c73652c20277368617065273a202835312c292c207d20202020202020202020202020202020202020202020202020202020202020"; "202020202020202020202020202020202020202020202020202020200a61ccdaa4b8f21641bd402b8faff21641ef3076f5a1f2164144b02b9588f21641c5178a6e4df21641dd1c60be93ed1641a08a98"; "a91cee0041e33c06b4afba0041d2bf5d839b12e2405a935a947011e2403e35e24d0d81bc407744059621e1b240e72cee6c9f35a940e9fcd4ceef169f4094c6c10b435d9240cb2f6aa76ed3864052e2ad"; "f1f4c27b40ab3f78ce083f65400fc8c5a674cb5140706bb72dfbe5464099509dceb0364240e6650679dbf13940a61a0b7d3323134020d5fe72f8c209408c64c776498f0340eb83e86e2f74fb3f2b20b3"; "bd7031f03f53a766cf2c0fd83f0ef3cbdc4ad8c03f8a05ca0a7d2fb23f102f23563eab034128ade67fea1ae640baa45a79ea1ae64048bc8d033b82c840c4ea0960b07ac8409738b576deb5b240993595"; "cdfbb7a5400ebc27015ab99740f72a2467fa7f8b4097c10f6a5ad47b406e6eb45fecce604010c4ff67e26756403bf824cfe1534c40c14922c00eb74440807d62e7481d2140377aadec59e61d40bfeb64"; "5a4f68134083ca1bef655a09406e8b9116d469fa3f0b4c07679117e73fe71370e70852d33f"];
["504b0304140000000000000021002392040f88000000880000000c0014007a6e5f6e756d5f732e6e70790100100088000000000000008800000000000000934e554d5059010076007b27646573637227"; "3a20273c6938272c2027666f727472616e5f6f72646572273a2046616c73652c20277368617065273a2028292c207d202020202020202020202020202020202020202020202020202020202020202020"; "20202020202020202020202020202020202020202020202020202020200a1e00000000000000"];
["504b030414000000000000002100758e6e5288000000880000000c0014007a6e5f6e756d5f702e6e70790100100088000000000000008800000000000000934e554d5059010076007b27646573637227"; "3a20273c6938272c2027666f727472616e5f6f72646572273a2046616c73652c20277368617065273a2028292c207d202020202020202020202020202020202020202020202020202020202020202020"; "20202020202020202020202020202020202020202020202020202020200a1500000000000000"];
["504b030414000000000000002100f2461da720020000200200000d00140067615f636f656666732e6e70790100100020020000000000002002000000000000934e554d5059010076007b276465736372"; "273a20273c6638272c2027666f727472616e5f6f72646572273a2046616c73652c20277368617065273a202835322c292c207d2020202020202020202020202020202020202020202020202020202020"; "2020202020202020202020202020202020202020202020202020202020200aea1b1130b3fe653e45951c84d4a2803e7c66bb3522278d3edd4d060c03e8b13ed85d71c89e49f33edbff9eb12e5b1d3f4c"; "d0f251ab163c3ff046dce2959b523fc408a87a0bc74a3fec6a6b5c01ea5f3f977d9e632f4e703fc17a7546141f8a3fe0876761a427a33f9fca1318d677b43fb26b5e4f2f5bc23ff2b95b898a34cb3f5c"; "59c84eb613d03f472a7919a529d53f85bda9d9edb0e43f42ff56628b1bf03f25bbff5e3ddef13fe560be850e3ae03f998cd9d731d6f53f131d3d583d1500401fb4ffcf80ba00404f67a8e1428ef93fbb"; "ce3a6513d0f03f0b0344cfeee0e83fbc1949a202a9e43fdbea09c499e6db3f7be6314b4228673ffdea88e121047b3f9f91a84d4b9f913f276a8818ea9ea33fa29beb5e2d27b63fa7a17bc1cf8fc13fec"; "94e2f63737cc3fc0d3266cb74bd23f7ff8cad06d31d13fb7ad617a7481e03f1a8700279c87f13f15f9bd048674f63fd6f09ad00eabf13f78e665392ff0f53fd387d96478900540cc84ce58eaa20540fe"; "983165a3fbff3ffb314f4f0145ef3f78b703a88494e43fccee22da0915e53f15e3ffe3474adb3f6c750945c2198e3f"];
["504b03041400000000000000210082670d4720020000200200000b00140067615f657870732e6e70790100100020020000000000002002000000000000934e554d5059010076007b276465736372273a"; "20273c6638272c2027666f727472616e5f6f72646572273a2046616c73652c20277368617065273a202835322c292c207d20202020202020202020202020202020202020202020202020202020202020"; "202020202020202020202020202020202020202020202020202020200a1bf0a743bf2551414f43a43fbf25514161b2b53cbf255141b5dad5e3e64bf840b92077dee64bf840e57403dde64bf840d46da2"; "dbe64bf84075ace3d7e64bf840e5035daeb588e240ea88db8b717de240b2f568db8b6abe40ace66970a970b340af26af0752b8a940b6e61ad4539f9f406e49a98ea7ab92400be135738a198740f41fff"; "d6c63d7c40b051888e071b63401bb7f638060852405a558a0aa8c14740192e089d7d8543400481b9bcf8bb26404dd02e527ef3124066ef0cd6509f0a401507698f76aa04400c6f45e2e01bfe3f030edf"; "d155e3ee3fb7599255aaf0d73fd9e1a0b84debca3f3abb5e262a3ab53fe24cd882edd9e5404896097dedd9e540202a32a447e3c84014ae0a48cfd8c8409f2eef92aaf4b240a35850ada7d4a5404438c2"; "171dfb974061b2eeb7a89f8b40dde77b2020027b409befd55948d760406dffae4731145740e0bcf334c1104c40a49fed95a921464017ac1df5f3762140f9840bd1c1b31f405a4d5a494a6d144066000a"; "73fbec0a403add2f49ae17fc3f9ed5e7a44414e53fb30026f206e8d43fde22b51ea0f5c63ff9252d25101caa3f"];
["504b0304140000000000000021002392040f88000000880000000c00140067615f6e756d5f732e6e70790100100088000000000000008800000000000000934e554d5059010076007b27646573637227"; "3a20273c6938272c2027666f727472616e5f6f72646572273a2046616c73652c20277368617065273a2028292c207d202020202020202020202020202020202020202020202020202020202020202020"; "20202020202020202020202020202020202020202020202020202020200a1e00000000000000"];
["504b0304140000000000000021009689e1dc88000000880000000c00140067615f6e756d5f702e6e70790100100088000000000000008800000000000000934e554d5059010076007b27646573637227"; "3a20273c6938272c2027666f727472616e5f6f72646572273a2046616c73652c20277368617065273a2028292c207d202020202020202020202020202020202020202020202020202020202020202020"; "20202020202020202020202020202020202020202020202020202020200a1600000000000000"];
["504b030414000000000000002100b99341c620020000200200000d00140067655f636f656666732e6e70790100100020020000000000002002000000000000934e554d5059010076007b276465736372"; "273a20273c6638272c2027666f727472616e5f6f72646572273a2046616c73652c20277368617065273a202835322c292c207d2020202020202020202020202020202020202020202020202020202020"; "2020202020202020202020202020202020202020202020202020202020200a7844d0224536623e20d3e12b82007f3eb99583283bf98f3ee771498ec73ab13e7a0f6c459a64f33e2cf3b195fbfa1c3f54"; "598510d3643b3f22038d1ee7e1513ffe708f1f64364e3fdfe118fcb355603f100793614537723fd7481a1b4b538d3f7eb8bd64020da53f9190081863ebb53fdc94fb60fd39c33fbe8a6f3e83e0cb3f04"; "e8d4835f23d03f69fc1d098b5dd63f7e0a59929ea1e53fca4210ee9951f03f4ebe7b49a453f13f159d98157f32e83f1be3b7cea434f93f9c0231d2663b0140058567c5c6ce0040ed2dbb3b8024f83fe5"; "55d9f2b621ef3f58ea7ce5a7bbec3fdb208201522ee73fc5811c67a692de3f6d610c2991d2693f50ca652af009793f46f8c7aeb729933f55e7e6df53eca23f4e75a5c6f09ab83f4516e5dd2d67c23f09"; "20560dc71bcd3fc2702f16ac65d23faf75a01b80b9d03f8864c3364b6de23fbc0f8a3a51d6f13f4a307b6d2362f63faef3dc0dd61bef3f2a997d10c57bf93f380ef64c323f06401b7277cb01b8054065"; "75794b3235fd3f5eba9ba3ee45e93fc695850a7de2eb3fdf4b09e4966fe93fad2689727ed0d93fbbc9f2565e89913f"];
["504b0304140000000000000021005971b65b20020000200200000b00140067655f657870732e6e70790100100020020000000000002002000000000000934e554d5059010076007b276465736372273a"; "20273c6638272c2027666f727472616e5f6f72646572273a2046616c73652c20277368617065273a202835322c292c207d20202020202020202020202020202020202020202020202020202020202020"; "202020202020202020202020202020202020202020202020202020200ade4f848d4b1e524113e149854b1e524135a9d27f4b1e5241b9c3d06d6f21fa40811ecb5c6f21fa40f801c4586f21fa4038adb4"; "546f21fa4025ca14476f21fa409c55b27f0eb5e34053b71aa420abe34064c02228dcb4c040656fda81a912b340d27932f8986faa40472cdef00c1aa040cba020a7381f9340445764d91f8387406237d4"; "d7c4d37c404895014c6eb06140d1288c70c94c524056fb9d00a00b494055beeab1b26c44401cf284f58e79214023719ad42d7014400e55e29228320d40b1565ef5693c064022912ef7b15700403d5278"; "68eb04e83f3df611e66cf8d53f8736a40cd13cce3fbd252666a13fbb3f76eb06f96857e7400b3222e56857e740cd51fefe2e97ca4011773428667eca404184e741afc5b3406f6042b3e8c2a5407d7490"; "6d7d62984050e97d35c9c58b402b4e804bf7047b401ea2e9c262f46140535567371daf574032a721dd72b94d405de59d56f8884740b0e534b461722340a182b7bfb12e20407f4e52e66f2a1540890d6b"; "44e9da0b4081ed96768b7dfc3fab260dabdcb2e33fe3402f92e9dfd43f7762da53b59bc83ffe76aa1e27cfb13f"];
["504b0304140000000000000021002392040f88000000880000000c00140067655f6e756d5f732e6e70790100100088000000000000008800000000000000934e554d5059010076007b27646573637227"; "3a20273c6938272c2027666f727472616e5f6f72646572273a2046616c73652c20277368617065273a2028292c207d202020202020202020202020202020202020202020202020202020202020202020"; "20202020202020202020202020202020202020202020202020202020200a1e00000000000000"];
["504b0304140000000000000021009689e1dc88000000880000000c00140067655f6e756d5f702e6e70790100100088000000000000008800000000000000934e554d5059010076007b27646573637227"; "3a20273c6938272c2027666f727472616e5f6f72646572273a2046616c73652c20277368617065273a2028292c207d202020202020202020202020202020202020202020202020202020202020202020"; "20202020202020202020202020202020202020202020202020202020200a1600000000000000"];
["504b030414000000000000002100f9d8af1320020000200200000d00140061735f636f656666732e6e70790100100020020000000000002002000000000000934e554d5059010076007b276465736372"; "273a20273c6638272c2027666f727472616e5f6f72646572273a2046616c73652c20277368617065273a202835322c292c207d2020202020202020202020202020202020202020202020202020202020"; "2020202020202020202020202020202020202020202020202020202020200afaf55c379dbf303e9c03845d0a7c573e1fc66fcfb6c8723e4478e0eee9b1803e92ebcf115b61c23e5c1fe39239dbf83e26"; "f6709c944c203f13d0c613b9cd3b3f3e2de56cb4bc463f65483345a238533fd36d2495b86c623fc52fc0c36c61733f4bf8af38c73f8f3fa87759c134aaa63f0841425f7d3cb73f4d9ec883b70ec43f3f"; "566000b884cc3f69c79fb78129d03f4d38ed70f2d3d73f97397af084a3e63f277df541278bf03fe7f6ad544ca3f03f6c541b42ae95ed3f9508aa326555fc3f965c9cc25a3b0240d07736f8a4bb004066"; "569b35436df73ffb6eae4b1b52f03f3099c26c5e76f03fdbc1b69b1392ea3fe63986aaa2ef803f34dd18843d19733f80bd71ef2da5973fecb38995f94f9c3f05bbea01e723bc3f0e6ca66dfc40c33f1c"; "64a42a5613ce3fd589be522f83d23f7490e10dbec3cf3f9443eb5875e5e43f5b3e7ed17327f23ff8ca392d9960f63f6c4445ac91cce93f3fedb8a0c246fe3f5209039fef89074051c5c2bdf9210640c7"; "9956082155fa3f33663f7c0b3fe53fd9359d84660ef23fbe6add2dbe21ee3f3517405224cae03ffa757e54abe9a93f"];
["504b03041400000000000000210063684c6220020000200200000b00140061735f657870732e6e70790100100020020000000000002002000000000000934e554d5059010076007b276465736372273a"; "20273c6638272c2027666f727472616e5f6f72646572273a2046616c73652c20277368617065273a202835322c292c207d20202020202020202020202020202020202020202020202020202020202020"; "202020202020202020202020202020202020202020202020202020200a77dbb677135e5a41255a1b21135e5a412fd87407135e5a4132372de9125e5a414988f570c625ff40add3e76fc625ff404a217e"; "6fc625ff40e8cadd6ec625ff40a7264c0ec625ff40e39de5de9bece540bf74aa6432ece540c36463589110c3406e9f920bc933b240439438823b9caa401867b3e4af37a040e0fba55eb88293405ddc9f"; "3a7acd874008f218e4658b7d405a153ddbbda760406d321973689652409ab0af3e65744a40406d5d0938f14540112f056f63fd20408413347bd2171540d4b5f1e698e10f4090b9debb57860740ba9933"; "082728ff3f05913fafe658e23f128a2d3b32efd43ff3511299a93fce3fe1f2affc8254ea40577f1eb71ab3cd4016466ca6b2b2cd40b575605e1814cd40ee5225f833ecb44025257511a69ea5404687f1"; "0b46ce9840d54ceca629988b4048026e2adb927a40e67a081adecf62409f28550a1029584064e8186c74b44e40760108c1a8454940da79c54f49c5254061eed062cb9c204052d86ad011631640df6708"; "3b03dd0b40737733e39d47f33ff3a25bf185a2e33f0492f68e90a9d63f8490657dfd58c83f18d1f7ebc0d5ba3f"];
["504b0304140000000000000021002392040f88000000880000000c00140061735f6e756d5f732e6e70790100100088000000000000008800000000000000934e554d5059010076007b27646573637227"; "3a20273c6938272c2027666f727472616e5f6f72646572273a2046616c73652c20277368617065273a2028292c207d202020202020202020202020202020202020202020202020202020202020202020"; "20202020202020202020202020202020202020202020202020202020200a1e00000000000000"];
["504b0304140000000000000021009689e1dc88000000880000000c00140061735f6e756d5f702e6e70790100100088000000000000008800000000000000934e554d5059010076007b27646573637227"; "3a20273c6938272c2027666f727472616e5f6f72646572273a2046616c73652c20277368617065273a2028292c207d202020202020202020202020202020202020202020202020202020202020202020"; "20202020202020202020202020202020202020202020202020202020200a1600000000000000"];
["504b030414000000000000002100bc08b6d818020000180200000d00140073655f636f656666732e6e70790100100018020000000000001802000000000000934e554d5059010076007b276465736372"; "273a20273c6638272c2027666f727472616e5f6f72646572273a2046616c73652c20277368617065273a202835312c292c207d2020202020202020202020202020202020202020202020202020202020"; "2020202020202020202020202020202020202020202020202020202020200a9ef99d296b1a803ec6370a71e573843edffaed674f2aa33e4b553db96234e03ea6b11d57af0e063f2a5348d70500233f4f"; "6f7782a0ab363f99916af22fb6473f9e9fabc02b0b3e3f5eab83a5e442553f4ca58259dd91633f5591daa01271753fe238a73b2046913f61d1b56f887fa83fc19db19a4391b83f08a5dc802cfbc43f5d"; "50c060c04ecd3f90952c513955d03f30bd5e8c0aa0d93fe51657e0e7fbe73f5a1945d283f5f03fe807996a250df03f30422208a1cff03f533b73ae2a7dfe3f6632ae5e14980240423e756c3b0100404f"; "d058f5ccddf43f3f21010aed21f33f48ac67284c1cf23ff820792cc591eb3f9a6950bcf0b1813f26cf932e5bfb9a3fb5e66ecf96c3a03f1df9c92e9b6dbe3f5ce891b3d4f7c33f6bcda981045fcf3f65"; "5f2a2030c0d23fd927475b5f41cd3fc357c9f07d2de83ff56e54aea1cef23f6b10780a758ff63fa69d8beced6fe23f76fb4dd31482014097c31e5dd59d08407ce5a6461a7c0540be4c1339a7c4f63fe0"; "0ce86a6fb8f03f41e17d3c7035f33f700f442bb17def3fd5fe939c3069e03f7eba2c69a092a93f"];
["504b030414000000000000002100456bf80018020000180200000b00140073655f657870732e6e70790100100018020000000000001802000000000000934e554d5059010076007b276465736372273a"; "20273c6638272c2027666f727472616e5f6f72646572273a2046616c73652c20277368617065273a202835312c292c207d20202020202020202020202020202020202020202020202020202020202020"; "202020202020202020202020202020202020202020202020202020200acd1b41f6b7f55841b2f420deb7f55841739e6b5e0f03004125c83c5e0f0300418b7d325e0f0300411bbf295e0f030041bb2315"; "5e0f030041faab6c5d0f03004167dac10f51ebe54033a0bd4899eae54014fee21414eae540b22b9a0ab6f3c240d49d3fcc8c21b240374f65600a19ab405ec726071158a04019370f974bcd9340bb0068"; "3407e687403b3bd681c5357e40d523e5cd2fd45f40ed20a724ecce52409b5d464561fb4b402267a676b884474067b5b1a716c9204081ff957359ca1540a94976dac2f510400afd640ead8a0a409ae7ad"; "4b24f9fb3f6a6971da8743e33fb0e9cb4fec46d63f1fe9c01e0e3fd03f7b4e22cc5c73ea403687702025e1cd40fd5adb0331a4cd40ecf4dacf8e0eb54069da9edf7e86a5406e8536aead069940ed6243"; "c8ead48a4034c0ff4aa2e8784018f8f041f85a6340411bb376720758408ca549ac2da64f40290896283baf4940dfe9ab22368f27404842eca33ad4214011597778da931740ca6dfb3651880f40dbb274"; "4f4a1df03f669ebade86ffe33fd88f4bf09296d83f2d05ef723775ca3f875799e96080bd3f"];
["504b0304140000000000000021002392040f88000000880000000c00140073655f6e756d5f732e6e70790100100088000000000000008800000000000000934e554d5059010076007b27646573637227"; "3a20273c6938272c2027666f727472616e5f6f72646572273a2046616c73652c20277368617065273a2028292c207d202020202020202020202020202020202020202020202020202020202020202020"; "20202020202020202020202020202020202020202020202020202020200a1e00000000000000"];
["504b030414000000000000002100758e6e5288000000880000000c00140073655f6e756d5f702e6e70790100100088000000000000008800000000000000934e554d5059010076007b27646573637227"; "3a20273c6938272c2027666f727472616e5f6f72646572273a2046616c73652c20277368617065273a2028292c207d202020202020202020202020202020202020202020202020202020202020202020"; "20202020202020202020202020202020202020202020202020202020200a1500000000000000"];
["504b0304140000000000000021007713ff3b18020000180200000d00140062725f636f656666732e6e70790100100018020000000000001802000000000000934e554d5059010076007b276465736372"; "273a20273c6638272c2027666f727472616e5f6f72646572273a2046616c73652c20277368617065273a202835312c292c207d2020202020202020202020202020202020202020202020202020202020"; "2020202020202020202020202020202020202020202020202020202020200aac4f35b839773a3eac377e71ec97613e617112e5cf197b3ea6b3f42376f6853ea34d0ef450b7c83e0d027572b4a3ff3ecc"; "eb0b1a3c46243fe6c4168439f2403f613df34b348a453fdd02cfa7befa553f367f6c7d4e2e633f71e24c6602967d3f714bb1b9f671923fe2d68215b7cda93ff4020bbb6da9b93f5fb12eca6febc53fb8"; "8f4a05e728ce3f4487e4028dfed03f5907414dce01dc3f9f50e65e6a13ea3feb988edce63ff23f96ad845c42bbf03f37295f78274cf23f0c1b696c97e8ff3fb5b8a5a0238a02406ad08cbcb8fdfd3fa5"; "504659c770f33fb4b85658f6b6f63fb1c2bc9cd872f43f3f87ca41dd06f03f010fa80515fa813f80e62841e021873f9971b955e300a73f8bf92280b7839d3fdcf96179a92ebd3f521e429628b3c43f01"; "9673863f83d03f60a850042004d33f52c82db0b1c4cd3f326783138358eb3f095e2e0d744ff43f6ffb43c3d566f83f5a4705e5cc3be03f95312f18c1150340262a596c0e3a09404e8fa1e2a598044007"; "2fcb71cc79f23f72d1831f74cff63f3f46120fcf63f83f5a0c71be42d4ec3f7795925fc8a99f3f"];
["504b030414000000000000002100c92b7e2b18020000180200000b00140062725f657870732e6e70790100100018020000000000001802000000000000934e554d5059010076007b276465736372273a"; "20273c6638272c2027666f727472616e5f6f72646572273a2046616c73652c20277368617065273a202835312c292c207d20202020202020202020202020202020202020202020202020202020202020"; "202020202020202020202020202020202020202020202020202020200aa9a4909ba1eb58411333a840a1eb58411751b623a1eb58414c265efea0eb58414235dc8c568f00415377ce8b568f0041b9fe5a"; "8b568f004124d29d8a568f004179b83f09538f0041d0d151096360e740a29c4f675f5fe740615a02199aa2c440ea5e801c6019b5409985f323705cab40d7420bd4044aa040ce64e8bf26db934079bff1"; "de07de874053989d65b1267d409059608bf7055f40b9c4dd7e0c895240efed43b7558a4b4054bdfc72f37847405caef91f6185204015de1962691816403f50d79f5ed81140589f8f7c9e440d4098458e"; "c5de39f33fff5a0fa6fbc2e13ff6a377aed29dd93fc6bdc2b009e9c73f402a74141bfceb40e6fd5883e69acf40813a7a39dd9acf40cd2a6fa30ecfbc40a5572eb3ccdeb340ff39e8e7c454a5405b5684"; "21180199407ae8307adfd7894066e39072414f7540892a9e183c54634069688d12cb225840f86caac980444f403f0f9a242d592f4024c3547893eb2740eeb4104cfdba22401274b6a9245d18401f7990"; "00d1f71040ca1d25ed5c46f03f46b718f13499e33ff31fa681facad63f4fb37510b77dbf3f"];
["504b0304140000000000000021002392040f88000000880000000c00140062725f6e756d5f732e6e70790100100088000000000000008800000000000000934e554d5059010076007b27646573637227"; "3a20273c6938272c2027666f727472616e5f6f72646572273a2046616c73652c20277368617065273a2028292c207d202020202020202020202020202020202020202020202020202020202020202020"; "20202020202020202020202020202020202020202020202020202020200a1e00000000000000"];
["504b030414000000000000002100758e6e5288000000880000000c00140062725f6e756d5f702e6e70790100100088000000000000008800000000000000934e554d5059010076007b27646573637227"; "3a20273c6938272c2027666f727472616e5f6f72646572273a2046616c73652c20277368617065273a2028292c207d202020202020202020202020202020202020202020202020202020202020202020"; "20202020202020202020202020202020202020202020202020202020200a1500000000000000"];
["504b030414000000000000002100a8ee640e10020000100200000d0014006b725f636f656666732e6e70790100100010020000000000001002000000000000934e554d5059010076007b276465736372"; "273a20273c6638272c2027666f727472616e5f6f72646572273a2046616c73652c20277368617065273a202835302c292c207d2020202020202020202020202020202020202020202020202020202020"; "2020202020202020202020202020202020202020202020202020202020200a1a6078bac743473ebc768c60b70a6b3e34e5c968033ba03e5a5481134997c23efef6781dcd78da3eb30249e2e8b2d73e0a"; "7ecc686f280c3f01f6445fe214393f92d892e445d4583f1d9a4914d39a703f5c863afad64b7d3f6d49009ac4d4853fca1fe69c8415973f485e2ae17182ac3f3f6b51056b96bb3f5177919c48dcc63f0d"; "a6c2633dd2ce3f4adf2c490c9fd13f87ba2921b679dd3f493de1d60eb5ea3fa9cf049de609f23f125647986304ef3f4699395454a8f43fc2cf985902080140fe1efb318aa60240906378adb19dfb3fcc"; "0eacc6e0b7f43feb771200272bf93f97627500b576f53f6c75a562f756f03fc8835ce841f1833f6c6d1389c0a0a43fab7f0f16763fa43f91b7662b073bbc3f90e7c252150ec63f61c3978c5bc6d03f18"; "eb5c64c41bd33f0841e1e85d9ad03f3d03ba9d25dceb3f636529a6098af43fe5f4a98d3c14f73fadacb987ee5dec3fc6595a03ad1c0540d5b0aed7c60d09403528293930f403401783e8d9b4fde43fb0"; "06c65dd4d5fb3f8937711216fcfb3fcea87f12ec2fec3ffc1fccadb1549e3f"];
["504b030414000000000000002100d0347b0a10020000100200000b0014006b725f657870732e6e70790100100010020000000000001002000000000000934e554d5059010076007b276465736372273a"; "20273c6638272c2027666f727472616e5f6f72646572273a2046616c73652c20277368617065273a202835302c292c207d20202020202020202020202020202020202020202020202020202020202020"; "202020202020202020202020202020202020202020202020202020200a6fb162d7cacd81418f406f9e166b2b41bf316f9e166b2b41a32d6f9e166b2b41d72a6f9e166b2b411f236f9e166b2b41addc9a"; "eff95ae2408f5c97eff95ae240ceaa95eff95ae240ddb393eff95ae240524375eff95ae240c406655ad4b4c740851713ebf03eba40f36e6708801ead406c283e679bc3a040eefe9ba65e6394408c8d4b"; "7968228840277b62f2b7b77b405ec3654bafdf5f404297866c832653406da4eedea62c4d40ff52669fc14d484011886a141c4a21402dcba907fae31640987b1697d2a91340d2ee8d55c44711407f8a17"; "126dd9ee3f8c112187cbf2e13fca1735bd9620dc3f38d1bb32a31ecb3f4ba7cecc0161d040e1324dd1c560d040d6d4cf81699eba40399f054b663fb440e1996ff79d33a540377d93639c4c9940be9daf"; "4e54a78940ea0dcceb61c1724088d3673399c163406b057eac4a235940b266ec1308c250407e008dc27e132d403914856221e92940cc58af13e9972240363229b4b8eb184060be35c96fe10f40cc2945"; "b89eebf23f08e46f8529a3e53f798927056707d93f265451735fe4c13f"];
["504b0304140000000000000021002392040f88000000880000000c0014006b725f6e756d5f732e6e70790100100088000000000000008800000000000000934e554d5059010076007b27646573637227"; "3a20273c6938272c2027666f727472616e5f6f72646572273a2046616c73652c20277368617065273a2028292c207d202020202020202020202020202020202020202020202020202020202020202020"; "20202020202020202020202020202020202020202020202020202020200a1e00000000000000"];
["504b030414000000000000002100eb8ec49e88000000880000000c0014006b725f6e756d5f702e6e70790100100088000000000000008800000000000000934e554d5059010076007b27646573637227"; "3a20273c6938272c2027666f727472616e5f6f72646572273a2046616c73652c20277368617065273a2028292c207d202020202020202020202020202020202020202020202020202020202020202020"; "20202020202020202020202020202020202020202020202020202020200a1400000000000000"];
["504b030414000000000000002100ef1e7b8910020000100200000d00140072625f636f656666732e6e70790100100010020000000000001002000000000000934e554d5059010076007b276465736372"; "273a20273c6638272c2027666f727472616e5f6f72646572273a2046616c73652c20277368617065273a202835302c292c207d2020202020202020202020202020202020202020202020202020202020"; "2020202020202020202020202020202020202020202020202020202020200a57d5bce3dff6a13ea4ac6ba1957ec43e1ffba1a91176da3e1a3ede4f36bdce3e9a143ad000960f3fb621e189b3613b3f11"; "ee5bb068c45a3fc5af1d6a0fb2713f54dcf60f68207e3f12d64c8373fa853fe5c2c1f0a7c0983fc94f3e99b4e3ad3fe60d9df6b4e5bc3f5674ac8d358bc73f7d59eade512dcf3fdd386ce36327d23ff1"; "3ee8f2b984df3f2694965bfcb1eb3fbe2ef82a69e8f13f7fc73eb510b2eb3f255ab5974745f73fc69541038d0502402cb676de73cf0240898e042d817bfa3f08ba147c4a87f53f6a2ce01e2b13f73ffc"; "f13887248cf23f02f51bb92b58e63fc655f1741d88ea3fac27c5ca9bdcc03f43436f877023883fe5fcaecfcf3ba53f8b6febb21e50a73fa364f3e5faf3bc3f6b6552833a3dc73f24a48080c10ad13fbe"; "a57e9409f9d23ffb306bf93a69d33fdf30fe05e7b3ec3f121212c9cd01f53f0698582aa8a7f53f782e63dda284f23f9be64e95aac906407153e47a0a6d0940e6373af15ca602401959ba3157cdef3fec"; "9c4aca0850fb3f4670923dfa2af63f3bf116ccf0cce83fe4bdab89f081ca3f"];
["504b030414000000000000002100ba34dd9010020000100200000b00140072625f657870732e6e70790100100010020000000000001002000000000000934e554d5059010076007b276465736372273a"; "20273c6638272c2027666f727472616e5f6f72646572273a2046616c73652c20277368617065273a202835302c292c207d20202020202020202020202020202020202020202020202020202020202020"; "202020202020202020202020202020202020202020202020202020200a47e3468672672f41f9e1468672672f414ce1468672672f4125df468672672f41e09ab8700750e3407944b8700750e3402317b8"; "700750e34010dfb7700750e340c8bbb1700750e340707640bb0f1ac8402dd3ac211ecbb840236ff5713d3cad407e0495d1afdba040d62f81314dbf9440e3a888f6628c88406342df7d9bf079404642d1"; "66ed616040fc644120331b544066120708e4564f407d34b7801a0d4840a518ba9074a82140081484918e71184002d183107ba71440b127147b3bed1040be3ddd2cbb4aef3f827fa2b6378ae33fa23e04"; "167b64dd3f170edf87a406d23f94287377ebf9a83fc7f02bfb68129c3f9816dd985839d1409926ff3b3139d140fe60b03b9e41bb40ae0eddbc1bc0b4405551d8218b6ea54093d5655690ab9940dffddc"; "f248e08940a25e0443941b71405ea7678ee3306440cf90b0dfa69459407cd6b76219005240d70ef746e0192f40833d20e6b0502b4027e886858b6c2340636f136a1b431a40282a3205c309fa3fb81539"; "4c01def23f4f5341942802ea3f2dcce798b677e13f187653076b79bb3f"];
["504b0304140000000000000021002392040f88000000880000000c00140072625f6e756d5f732e6e70790100100088000000000000008800000000000000934e554d5059010076007b27646573637227"; "3a20273c6938272c2027666f727472616e5f6f72646572273a2046616c73652c20277368617065273a2028292c207d202020202020202020202020202020202020202020202020202020202020202020"; "20202020202020202020202020202020202020202020202020202020200a1e00000000000000"];
["504b030414000000000000002100eb8ec49e88000000880000000c00140072625f6e756d5f702e6e70790100100088000000000000008800000000000000934e554d5059010076007b27646573637227"; "3a20273c6938272c2027666f727472616e5f6f72646572273a2046616c73652c20277368617065273a2028292c207d202020202020202020202020202020202020202020202020202020202020202020"; "20202020202020202020202020202020202020202020202020202020200a1400000000000000"];
["504b030414000000000000002100d74f745718020000180200000d00140073725f636f656666732e6e70790100100018020000000000001802000000000000934e554d5059010076007b276465736372"; "273a20273c6638272c2027666f727472616e5f6f72646572273a2046616c73652c20277368617065273a202835312c292c207d2020202020202020202020202020202020202020202020202020202020"; "2020202020202020202020202020202020202020202020202020202020200a7d400d0cefe8833e4f0f1ae564de723ef1019226e103e53ea5c34ce37e3c163f51bc5d55f1453a3f828868a1d849543f43"; "de52074175483f5c5ed2d6a31e603fe963620ce478633fd80e1a36e625803f2bd014cb14fa973fb8a0f9d49c15ae3f4e641c21e4b0bd3f72e9872cc209c83f963a06749c69cf3f2145283530b8d23fad"; "ab20381111e13f565f0e67e219ed3f4301a60d65fef13f37d7d550bbcde53fd9d6141891cdf83f81c83f2c463b0240d46ed68f72d601408c1d91cda597f53f75dd81b887b6f73f57c73f255074f73fe2"; "61f1602eb2f03fe0da6b10db44e83f611d8d5da4e4f13f8235a54a7e46c53ffeb33af1baaf843f7a0987e9ac11903fffc80ba82a80a83ff7b23db24a38aa3f7f742c8cf388be3f139388308e5cc83f7e"; "03721f1158d13f9afca7539bd5d23f28f9042689e0d63f9af7ff70214dee3f1f135709a4c1f53fef3271a8ad88f43f995c39f527d8f63fa0229f774b8f08401490af166c4209403d256c42e59e00409e"; "fb2b4a2890f73f5a5b1f013e08fd3fee6be710a9f1f43f6405f52d09ffdf3f8a4304665200e33f"];
["504b030414000000000000002100ab686eaa18020000180200000b00140073725f657870732e6e70790100100018020000000000001802000000000000934e554d5059010076007b276465736372273a"; "20273c6638272c2027666f727472616e5f6f72646572273a2046616c73652c20277368617065273a202835312c292c207d20202020202020202020202020202020202020202020202020202020202020"; "202020202020202020202020202020202020202020202020202020200a20324c3e91de61410008593991de6141437f263b93c402415ddc1e3b93c402410d481a3b93c40241cc430f3b93c40241c21010"; "363224ec40152dc485a223ec40b9b7cc1ca997c4407bf481927dffc2406a244179a94ab540cad474c2e5f0ab401cb366ccf8a3a0407976b16947ef944046dce43d6ede88402a0c0afae80d78403ec0f0"; "8f46c36040fc700b67b70f5540901b48587917514016e4eb91cb314640f3124c9379442140a4849e46462a1a4073d147d19b57174070a3a2171a4d1240d9a7f3445084ef3fb0950b9263e4e53f33d132"; "d1b9a8e23fb418d1736d23c43f1a98ea3cd115b03f9cb2eff0970ea33fc4e0bd5e809df0404dba551b3326d240b9d024cb2526d2405b7ede244ff2bb403eef99c49f60b5409a6af047d0baa54004d374"; "17b00d9a4074b9691ff4078a4070deac5953ca6f402547bbfd94b76440535561c0525259404b09455afa6653401bcaaa7fa14a30400c9d4aa8416e2d40616f7bce1b1724404cf7b62596111d405dbbcf"; "a89540fb3f813d846ce9d5f53fe8c6690726b0eb3f271e4e6f9884e53fdee973af09d4bf3f"];
["504b0304140000000000000021002392040f88000000880000000c00140073725f6e756d5f732e6e70790100100088000000000000008800000000000000934e554d5059010076007b27646573637227"; "3a20273c6938272c2027666f727472616e5f6f72646572273a2046616c73652c20277368617065273a2028292c207d202020202020202020202020202020202020202020202020202020202020202020"; "20202020202020202020202020202020202020202020202020202020200a1e00000000000000"];
["504b030414000000000000002100758e6e5288000000880000000c00140073725f6e756d5f702e6e70790100100088000000000000008800000000000000934e554d5059010076007b27646573637227"; "3a20273c6938272c2027666f727472616e5f6f72646572273a2046616c73652c20277368617065273a2028292c207d202020202020202020202020202020202020202020202020202020202020202020"; "20202020202020202020202020202020202020202020202020202020200a1500000000000000"];
["504b030414000000000000002100b1218dd420020000200200000c001400795f636f656666732e6e70790100100020020000000000002002000000000000934e554d5059010076007b27646573637227"; "3a20273c6638272c2027666f727472616e5f6f72646572273a2046616c73652c20277368617065273a202835322c292c207d202020202020202020202020202020202020202020202020202020202020"; "20202020202020202020202020202020202020202020202020202020200abcba00329966903e9c4b42a13343a93ef7d76866b24deb3ee895bb0a8f21153fcc0221096371343f2f1fd90a3f8e4b3f4c6c"; "8db6aca34c3fd16d17648fe25b3f1ea8efa7c8c2653f2f13b4e53c80813ff09981c084549a3f777b57edd603b03f03150a117635bf3f399cf314b4d2c83fdb7d4edfc8f1cf3f961d1e1aea9ad33ff095"; "083b05d0e23f28d2046d4468ef3fdb1fe38743d4f23f3c22a9d44980e43f80467a0475c4fa3fde3e5aaae38d024073ac355bb205014099e748f7204de93fa50ee4f67939f83f7dd5051f27faf73f2b59"; "e96a7310f13f8c724a658899e83f8bd7ef7fd0def03f5bed74e42ad6c23f03b846233cec653fc4875071e5d5803f164c1e9b0fcf903f4da3be85115ca83f173ccd8fc10bad3f9b1700554b66bf3f0c43"; "f7d57e75c93ff3fa795ea6a5d13f3b1fbba69cddd23fba96c5e823f2da3f12ab65357f87f03f870382051a4af73fa558b009fe8bf43f132d6b8a861dfb3fd1080b7e713d0a40235a0f44fd8509405078"; "5cf3d02afd3fb4e23fb5cb3efe3fff766e14dcf40040f5c26bc8e198f53fb02023358a6edc3fea5c52046e63e53f"];
["504b030414000000000000002100a78f203820020000200200000a001400795f657870732e6e70790100100020020000000000002002000000000000934e554d5059010076007b276465736372273a20"; "273c6638272c2027666f727472616e5f6f72646572273a2046616c73652c20277368617065273a202835322c292c207d2020202020202020202020202020202020202020202020202020202020202020"; "2020202020202020202020202020202020202020202020202020200a63fbdb33e6c0614170075d0a75c40241c2ef230a75c402414c5b120a75c4024175a7020a75c40241da50df0975c402412018320d"; "6ec40241465c6f8d55daed40e01a36601d50c540213d1a3fc149c340b75e81d01cd9b54086557cd3b75eac407c9101c952e5a040ed1cba3695469540071ccee7b2308940e53ff044931f76405edb84e8"; "58eb6040c4cda854498f5540376a9691bcc55140a8e5f406f45f30409565abb9aefd20406fd66b2dc9511c401ab23c1b59751a40d78797d26e410a4041f9d45d5d09ed3f80a33c5ead56e53fdcf5bd15"; "44bde13f8742afe49bc3c53f85023158bc0ab23f16481bc32245a53f9e07d484ed74f140152fc784ed74f140931b3f9cb2f9d2401b277d5791f9d2408c7f9f1da364bd40bf8f38b5c496b540f3bb2f2d"; "b308a6401d1c43c6564f9a401335649e6d1b8a406e390eaca1f36e40e90d117eaa306540157381025e3c59407fa1b80227245440a75b42847bad3040e87b629a4f892e40c75e8a2107fb234069e82405"; "df1d2040310212dd242dfb3f473d4c17880ff93fab5496339cf0eb3fabbe49aca6cbd13f55fcd2e746b5c13f"];
["504b0304140000000000000021002392040f88000000880000000b001400795f6e756d5f732e6e70790100100088000000000000008800000000000000934e554d5059010076007b276465736372273a"; "20273c6938272c2027666f727472616e5f6f72646572273a2046616c73652c20277368617065273a2028292c207d20202020202020202020202020202020202020202020202020202020202020202020"; "202020202020202020202020202020202020202020202020202020200a1e00000000000000"];
["504b0304140000000000000021009689e1dc88000000880000000b001400795f6e756d5f702e6e70790100100088000000000000008800000000000000934e554d5059010076007b276465736372273a"; "20273c6938272c2027666f727472616e5f6f72646572273a2046616c73652c20277368617065273a2028292c207d20202020202020202020202020202020202020202020202020202020202020202020"; "202020202020202020202020202020202020202020202020202020200a1600000000000000"];
["504b0304140000000000000021000b5d774720020000200200000d0014007a725f636f656666732e6e70790100100020020000000000002002000000000000934e554d5059010076007b276465736372"; "273a20273c6638272c2027666f727472616e5f6f72646572273a2046616c73652c20277368617065273a202835322c292c207d2020202020202020202020202020202020202020202020202020202020"; "2020202020202020202020202020202020202020202020202020202020200a0cc7bd020efb873e778696c16d13b33e648e36c9cf30f43ee0700bf286cc1e3f09ff2596d27d3d3f1e066a333096533fd4"; "6e1c813ff8433fb6ac0fa12c855a3f12464db3ddba663fabe4b288ea62823f36234ea3fede9c3f27d07cf910edb03fe428102f6a5dc03fb6a388da0067c93facb138919b2ad03f07ee2fa5eaf4d33fa8"; "5fe91bca70e33f1ba7d23f1db9ef3fc109ee12b058f23f2c781cd9727fea3fa00b680cdf61fd3f3b221842eb250340165ef1fad49c0040e1d67492d967f13f30b82de9409ef93f20c3e0c8fd8af83f97"; "ba764793f2f13f7cb5c399f91aeb3f8b394a3fae1cee3f00ff106ebea7c13f966a7897061e663f47055d01dae17d3fe1ee2a4e7029913ffbadbf116fd7a63f038f170a5ccfb03f89e9e07fd2a6bf3f89"; "77943745c3ca3f78d67b1efb9fd13fa958b4b539ebd23f65d5ef4dcc91dd3fd467a87ee4aef03f4359e285c757f73fac309228babaf23f5fea7687ae02ff3ffd9225e3f7ca0a40feaad8927252094028"; "d676a4ff3df83f26b50b5c2d0400402b77ebe73b970040e274b4551624f53f8039377b60bfe43f09255ff23b21e53f"];
["504b0304140000000000000021009a57409220020000200200000b0014007a725f657870732e6e70790100100020020000000000002002000000000000934e554d5059010076007b276465736372273a"; "20273c6638272c2027666f727472616e5f6f72646572273a2046616c73652c20277368617065273a202835322c292c207d20202020202020202020202020202020202020202020202020202020202020"; "202020202020202020202020202020202020202020202020202020200ae4670a18c729664151704f0c473a05418cf4460c473a05415654440c473a0541e5df410c473a054104c33b0c473a0541cb9677"; "74f23df04014ace9047c3cf0403c158de23b4ac640aed1d7eb5773c24019f7ea6b0089b64043d23fa9eda6ac40b09b05fb0238a140c55a18cbafbd95408d6edfffed6e8940ca374efdb784744008db5e"; "ba36286140ef82c6e26a6556404bb6f6a84aa552404292311005352e407a27baabe3e521403925f4eddace1e404a13f95aae991c4080a6b11c399bf83f26a303d89a82ee3f58a24e13d545e63f774e3a"; "ecccd1df3ff2b57d23006ec73fb64aa7b2bf47b33f8a82ac1c41d2a63f8d4c82305923f34010927d305923f340280e88332cd4d44024a768a8dfd3d4401709f775c11bc0405b8374169bd7b540a269f2"; "dd5b8ca640fbc875bf1bb39a40285dc6810bbb8a40cf125425c4c36f409752d8c3c5c765407ad692eb841d5a40fe512dc3eb895540ac1b55c4d9263240f6e36857a35f2f403a0980f23db1244032bed3"; "32a36b2140939611677f77fd3fb88e18280b8af93fd7d256c4ffb2ec3f17a49b1d22fed23fb6e8bfec4caec23f"];
["504b0304140000000000000021002392040f88000000880000000c0014007a725f6e756d5f732e6e70790100100088000000000000008800000000000000934e554d5059010076007b27646573637227"; "3a20273c6938272c2027666f727472616e5f6f72646572273a2046616c73652c20277368617065273a2028292c207d202020202020202020202020202020202020202020202020202020202020202020"; "20202020202020202020202020202020202020202020202020202020200a1e00000000000000"];
["504b0304140000000000000021009689e1dc88000000880000000c0014007a725f6e756d5f702e6e70790100100088000000000000008800000000000000934e554d5059010076007b27646573637227"; "3a20273c6938272c2027666f727472616e5f6f72646572273a2046616c73652c20277368617065273a2028292c207d202020202020202020202020202020202020202020202020202020202020202020"; "20202020202020202020202020202020202020202020202020202020200a1600000000000000"];
["504b030414000000000000002100381c3ee830020000300200000d0014006e625f636f656666732e6e70790100100030020000000000003002000000000000934e554d5059010076007b276465736372"; "273a20273c6638272c2027666f727472616e5f6f72646572273a2046616c73652c20277368617065273a202835342c292c207d2020202020202020202020202020202020202020202020202020202020"; "2020202020202020202020202020202020202020202020202020202020200a3544373ed13dcd3e292b19a730f6d53e097160ac9a05ee3ef2584e00acb7073fe3bcc17fe3d6143f4abd98a01e1f273fae"; "9fa1bcd9a1383f395ebc9053b0393fcb8697e5a5a6503fc1cbc755fef0643f840855f21353823f19bb06bc53ed9d3f5d1b3a82bc7bb13fc00f03042ef1c03fc2028635acd9c93f122a77f1ac4ad03fab"; "717826dfa2d43fe78d80ee841be43f22b1c1051007f03f0dfb57e475c7f13f3503c9ae66a9ee3fdf9a4e8ed479ff3f0af4a7cd6a5b0340247a9bb30d7aff3fb2d71621d938f33fb4618df09a74fb3f4c"; "3876b3b8d7fa3fd53fb9f8b9edf33fe58e23d8deefeb3f07c5c1b7a544e83fd61e2220051fb63f53dc2c47b1d2513f717d4646971f6a3f8400d9621ded7f3faf9cabc7c6ba923fb6d01d0ab550a73fed"; "51f1e88535b33ff76ac73f0127c03f4836e7493301cc3f0517fe33a6a2d13f627d2b8ddadbd23f269b1410b546e03f2b6195e05dc6f03fedf961c9d974f73f63577777d7a3f03fc006a7fecdb901401a"; "8df75dff520b400c0fbce46a190940946fefef45eef13feca669d17f540240f3e83997d8be0140592f82a78450f83f6f55c4492b02e93fefe52338eb29e13f"];
["504b030414000000000000002100f159580330020000300200000b0014006e625f657870732e6e70790100100030020000000000003002000000000000934e554d5059010076007b276465736372273a"; "20273c6638272c2027666f727472616e5f6f72646572273a2046616c73652c20277368617065273a202835342c292c207d20202020202020202020202020202020202020202020202020202020202020"; "202020202020202020202020202020202020202020202020202020200a6b2027d7b5e4254158ab959ab5e4254119e39319b5e42541531d1933b3e42541c02b2167dfe22541ac603433a15110416790be"; "aa26481041b4c0adc6fd4ef1401d522f3ff94ef1403589d393b93cc4403c49ff11c686bf40840876022340b640850d852ade27ac4055dfccac665aa140839749605c129640b58104fb03a88940c6fb56"; "1f0aac72409c07158b14666140427e02f5555a57407e9baa57e5d553408092769b5cf92d40a1956930d2b3224098aac55bf1e7204026c4b9525bed1f4017a6fc90d145f63f762d5f74795bed3fe0c310"; "8c1331e63fbe15d7cb3c7adf3f0506d86a06cacd3f4ba940cfaf40b63fbd800257008ca83f033395b6980613417dd2a7888b13f5403f31a7888b13f5403be75143514cd64048162426364cd64021bc75"; "a61907c1402aaac6898f2bb640540cfebc18fea6406358f3a84c019b40f707d636cd2a8b40a17f35e79a5d704066f68a15f7186640bd2c78cc0eb95a40a5d9e46f211c57400690efe965bb334089ee42"; "4019e32f40d327da63976b2540406ab213b2482340cf053c1813250040234bcf517fb4fa3fefef2da486e8ec3f406f38d6e3fcd73fb5113a15b19ac73f"];
["504b030414000000000000002100bd92aec388000000880000000c0014006e625f6e756d5f732e6e70790100100088000000000000008800000000000000934e554d5059010076007b27646573637227"; "3a20273c6938272c2027666f727472616e5f6f72646572273a2046616c73652c20277368617065273a2028292c207d202020202020202020202020202020202020202020202020202020202020202020"; "20202020202020202020202020202020202020202020202020202020200a1f00000000000000"];
["504b03041400000000000000210008894b1088000000880000000c0014006e625f6e756d5f702e6e70790100100088000000000000008800000000000000934e554d5059010076007b27646573637227"; "3a20273c6938272c2027666f727472616e5f6f72646572273a2046616c73652c20277368617065273a2028292c207d202020202020202020202020202020202020202020202020202020202020202020"; "20202020202020202020202020202020202020202020202020202020200a1700000000000000"];
["504b030414000000000000002100b58a376d28020000280200000d0014006d6f5f636f656666732e6e70790100100028020000000000002802000000000000934e554d5059010076007b276465736372"; "273a20273c6638272c2027666f727472616e5f6f72646572273a2046616c73652c20277368617065273a202835332c292c207d2020202020202020202020202020202020202020202020202020202020"; "2020202020202020202020202020202020202020202020202020202020200a702f461a2f7ccf3eb60ae028ef83d73e2a6c5ff1bbe4ef3e731aece6be3b093f07271e11516d163fc021bc46a2e1283fdd"; "bb38109c773a3fd75ec5b797fc3b3f47cc88e44508523f395018d686b4663fff86d10ab6d4833fd6e27b52b0d89f3f96a0aafc0757b23f2c5a257b438ec13f027a3430484eca3fe43647c2434ad03fbf"; "b12386c2d6d53fac8af219cbffe43f8ebf42825e48f03f0dde5d6d1d33f13f2cbf9d840ab1f13f01a856173e4b0140aba278ae4d4704405f5e99ddcef1fe3f796aafca1462f43f7ea23549c4abfc3fec"; "e51a217919fc3fc887a0cf00eaf53fe2a0af29f6fdf03f342792adae2fc93ff9af9976aa02533f271016e739ec6b3f40a7440f86eb803fef905b5e6fd8933fe4d637153568a83f988fa3f7bc6bb43fed"; "d5284cdaadc03fe4319f51e3e0cc3f14ab0f4730a4d13fe2416ce46361d23fd6680f248450e23f3a8a2651eaecf03f0907ff0d0aa0f73f935374a97f00ec3f2c3be441b9570540b9e43404783b0d40a5"; "c0f10e1bed0940ec05cba40722dd3f80a2792b836f0440e3cb90aa81410340ffcf5277983cf93fe9537f67dda2eb3f389bc09e45e5e03f"];
["504b0304140000000000000021003b438a3428020000280200000b0014006d6f5f657870732e6e70790100100028020000000000002802000000000000934e554d5059010076007b276465736372273a"; "20273c6638272c2027666f727472616e5f6f72646572273a2046616c73652c20277368617065273a202835332c292c207d20202020202020202020202020202020202020202020202020202020202020"; "202020202020202020202020202020202020202020202020202020200a6230854195f92541dd4971fb94f92541f040f16294f92541218a322792f92541b4f8129f9af725417e1cc0ed706010419e9475"; "01715610413538f866cd6af140d64e85f6c76af140cab8c6675a85c4402926cd65ab92bf40c04925ba22a3b640ff1b86c8fb49ac403a791db007a1a1403c03b3d7e26f964031c6576ba5258a4034fecf"; "0439f970408675b9954fb46140709b595c438f58408432f01074335540ac00880c36582d404c010fc3c25e2340ce18495d5f12224017b5e4b0ab492140248de15ebdd6f33fba472c5b0b04ed3fa15667"; "c4c93ee53f8af4ae94493bdd3fca44ac3b68f4c83f194a503bcba1ad3f2d0e084049191341f43014f4c134f540a15513f4c134f540d3bed766ea89d6403b1aa578cb89d640bf7da8c9653fc14026df34"; "cc5f47b6400abffde72240a7402858a0e2c0259b40239e2b519f848b40664ae7ac69fa704050ca07c92bd365406fb843fe87605b4002189bf8c39058401707865cfc253540252b3a39d2402f40b913f5"; "a3f4342640e0dfb170b22804409c678d392af500407d24180b7508fc3fb4deb31f28ebec3f2f6282fc18d1d53fbc3f18eca19ac13f"];
["504b0304140000000000000021002392040f88000000880000000c0014006d6f5f6e756d5f732e6e70790100100088000000000000008800000000000000934e554d5059010076007b27646573637227"; "3a20273c6938272c2027666f727472616e5f6f72646572273a2046616c73652c20277368617065273a2028292c207d202020202020202020202020202020202020202020202020202020202020202020"; "20202020202020202020202020202020202020202020202020202020200a1e00000000000000"];
["504b03041400000000000000210008894b1088000000880000000c0014006d6f5f6e756d5f702e6e70790100100088000000000000008800000000000000934e554d5059010076007b27646573637227"; "3a20273c6938272c2027666f727472616e5f6f72646572273a2046616c73652c20277368617065273a2028292c207d202020202020202020202020202020202020202020202020202020202020202020"; "20202020202020202020202020202020202020202020202020202020200a1700000000000000"];
["504b030414000000000000002100a481b4ec30020000300200000d00140074635f636f656666732e6e70790100100030020000000000003002000000000000934e554d5059010076007b276465736372"; "273a20273c6638272c2027666f727472616e5f6f72646572273a2046616c73652c20277368617065273a202835342c292c207d2020202020202020202020202020202020202020202020202020202020"; "2020202020202020202020202020202020202020202020202020202020200ac084206b78b85f3e1826375a7aba713ebf4eeaf1a433743e6243260028e2b93e43dfc1342a95f73eb355b8ecf78a213f6f"; "2a3a19c58b403f8559f66e3d7f553ff1359d366b9d473f89f2ce53fcb25b3f73276205ad6c693fdf3e911aac16863f7e1de7af974ba13f3113e2b01a5db33f4519b9364937c23f3cc18d0ecdc2ca3f5d"; "7a63374e2ad03fd188dbb1cc53d73f5a28a817ab30e63f47035fd458b3f03ff8a20f71fec7f03fe19f9efb8239f33f8732b0b4ccbb014075212f3813cc03407677b9b44912fc3f74ccb1e9cce3f53f05"; "0c8d698bddfc3f872a3fe594cffa3f68c51c82808bf33f647cf9c78b62ec3f7bfe5c9c6b3aea3f0bfd06e4bd99bd3f04904d17d08d6b3f89f94368a9a77f3f6341b6b63565943f3d4fd3236155a83fd4"; "97515cac02b63f73acccd69414c13f523b78364ca8cd3f89856638599dd13f822c9af2716bd13fef7330dc70efe43fd85f6d39d372f13f24f5dec3f1c0f73f15aad1fe9c3be53f633749b1e2ef06400b"; "f4dc27469d0d401a6867d7215c0840f5871ef8022df43ff43e7864cba0054058cd87ebad030240b0456c84edd3f63fdcb478ec622ce83f636b689fa015e33f"];
["504b030414000000000000002100e02173b030020000300200000b00140074635f657870732e6e70790100100030020000000000003002000000000000934e554d5059010076007b276465736372273a"; "20273c6638272c2027666f727472616e5f6f72646572273a2046616c73652c20277368617065273a202835342c292c207d20202020202020202020202020202020202020202020202020202020202020"; "202020202020202020202020202020202020202020202020202020200aff8e080c95796a4121373a0b95796a41daec7e0a95796a41c3522fbb44950741e02e2bbb4495074118c029bb44950741395328"; "bb44950741193424bb44950741403b51214510f2403fc3c3e90210f240e51f9385f871c640cac0864a1537c04047325edfc783b740a44e231f33c3ac4064d4b56627fea140746fbf4e46d996403bcb5c"; "0d82f28a4067858df508b36f40baffaddb81fd614093019eadb3f75940f718a6b28d805640f48d15bc96542d40b52e53e861d5244051bf95b541ee2340cbce3c8c6c312340b1e47e071cbbf43f81889f"; "35d755ee3fa1c1ac00284ee73f8fbfb6157f29df3f8c95f8f3e307cb3f0c00c6dd842eb63ff40bfa3a250aaa3f17d541768243f540bc0341768243f54007731461ad31d74021190c8a7631d7401936d3"; "4637b0c1407a7ff375db28b6407c86c4023b82a7405b8102b8f6139b40eb4e2c9fafda8b4012ab0eecb48971405aefb8d85e1565408f67c47ec1545c40bd992852dc625940cd27a64051af3640251a00"; "ee620730408fba3f158c76284094fe0b6c3164034051ccb523c0910240c3dcd989125afc3f259eda0e4a87ef3f6404a62c4470d73f806de288e5d4c53f"];
["504b0304140000000000000021006cd3439f88000000880000000c00140074635f6e756d5f732e6e70790100100088000000000000008800000000000000934e554d5059010076007b27646573637227"; "3a20273c6938272c2027666f727472616e5f6f72646572273a2046616c73652c20277368617065273a2028292c207d202020202020202020202020202020202020202020202020202020202020202020"; "20202020202020202020202020202020202020202020202020202020200a2000000000000000"];
["504b0304140000000000000021009689e1dc88000000880000000c00140074635f6e756d5f702e6e70790100100088000000000000008800000000000000934e554d5059010076007b27646573637227"; "3a20273c6938272c2027666f727472616e5f6f72646572273a2046616c73652c20277368617065273a2028292c207d202020202020202020202020202020202020202020202020202020202020202020"; "20202020202020202020202020202020202020202020202020202020200a1600000000000000"];
["504b030414000000000000002100d462d23228020000280200000d00140072755f636f656666732e6e70790100100028020000000000002802000000000000934e554d5059010076007b276465736372"; "273a20273c6638272c2027666f727472616e5f6f72646572273a2046616c73652c20277368617065273a202835332c292c207d2020202020202020202020202020202020202020202020202020202020"; "2020202020202020202020202020202020202020202020202020202020200a6473089acf5e033f2f8a285a1797e93eecff19a6466af53e0aed0a28d3090a3f358a64d5362d133f8c0ee51877a52c3f23"; "5aa80f63613c3fabdb9e4f2f4e403f9c79650e3b7a533f65b36d4fef8c6a3ff8b42e811573883f3007abeb5ab1a23f340377d87066b43fb0937fd0cddec23f5b16dc4f6957cb3f6365f4d3ca19d03f30"; "22766c3599d93f94dea2532d8fe83f97a7f344334ef23feb4f5158d3d5f13fdc720677bda1f43f319bee3c46c00140e10fcbea63df0240ae57434f58eff73fc054ee51cdf0f63f4c9c5c825337fe3f2b"; "adf483867ffc3f2b4be24a9304f53f97e863d3875bf03fee82e09de781e73fe2c543c4263cbd3f59580c4b295b513fccb5594c93b56e3f7ded8ada3e22803fe07643fa0916953f74b398e0459fa73f88"; "874474da7db83f0af6f605588cc13f266da4d59d56ce3f364cd0dcd5ccd13f65a33ea86154d03ff2894128a6f9e83f215295e95245f33f3c632fa51b2efa3f28fde3513627dc3ff26684c4708307404f"; "17879d88b90d401d1e68bcd8640640fce7d4a22746fc3f0aef699010fc084083b8165a9db602408b30abca8eccf83fc32b2b7fc98fe93f"];
["504b0304140000000000000021008b748ca428020000280200000b00140072755f657870732e6e70790100100028020000000000002802000000000000934e554d5059010076007b276465736372273a"; "20273c6638272c2027666f727472616e5f6f72646572273a2046616c73652c20277368617065273a202835332c292c207d20202020202020202020202020202020202020202020202020202020202020"; "202020202020202020202020202020202020202020202020202020200af160791ff97f294138965015f97f2941f40d4173f87f2941ba4e7226e37f2941f537b8135092114142c17caa67741141f26da8"; "477f6811412d752a68a3d6f240eba60f8f93d6f2405d763eeb193ac740c316c533c16ebf401241649a2f20b84054e0a0a3fb46ad40d1ddd68aa843a240f2039abcd41d97402f75fdf118bc8b40cba808"; "63acc06d4048c6766aefaa6140366d96fa8cf1594068702743dfdb564020989d1918e42b4064ea662ff09b26403661d2953efc2540fe19bd56e7412540accd11220948f43fd5e743171df9ed3f0cb565"; "bc44d0e63f20df3a01c018df3f3dc97e635997c83fdef845faee0dba3fb8bee676378dab3f8911454ee78d1441d1fdc49cc4fef640976fbf9cc4fef6403dc9a1a42f8ad8402979f004c389d84048b822"; "9cd364c240e759d298ead0b540558f5dfd45aea740d585a24cb2c59a40343f27df305e8b4091e50227fb7c7140cc43f1c382c463402c6261ef9e245c40a8324f7c6d633b406ccb3db4e4a0374063f760"; "6c461d304032641743e2b62a40b3ba41f42d1004408327272f17bd0340d2a660d21254fb3f253361a52b5bef3f1e4ea9a5f83adb3f"];
["504b030414000000000000002100bd92aec388000000880000000c00140072755f6e756d5f732e6e70790100100088000000000000008800000000000000934e554d5059010076007b27646573637227"; "3a20273c6938272c2027666f727472616e5f6f72646572273a2046616c73652c20277368617065273a2028292c207d202020202020202020202020202020202020202020202020202020202020202020"; "20202020202020202020202020202020202020202020202020202020200a1f00000000000000"];
["504b0304140000000000000021009689e1dc88000000880000000c00140072755f6e756d5f702e6e70790100100088000000000000008800000000000000934e554d5059010076007b27646573637227"; "3a20273c6938272c2027666f727472616e5f6f72646572273a2046616c73652c20277368617065273a2028292c207d202020202020202020202020202020202020202020202020202020202020202020"; "20202020202020202020202020202020202020202020202020202020200a1600000000000000"];
["504b030414000000000000002100de2eaed828020000280200000d00140072685f636f656666732e6e70790100100028020000000000002802000000000000934e554d5059010076007b276465736372"; "273a20273c6638272c2027666f727472616e5f6f72646572273a2046616c73652c20277368617065273a202835332c292c207d2020202020202020202020202020202020202020202020202020202020"; "2020202020202020202020202020202020202020202020202020202020200ae1887f530e52503ef737e2bc1b42643e068555924f7b6b3e5eaa81a05460c13eff2fbd7a5ec2f93e4548d6652c92213f65"; "23d061752e3f3f82be177d581e523fff2faf198792493f1da54feaa3e3583f42445b4dd89a6a3fba9f137952e18a3f04088d2c6a21a43f5060c2155e7bb53f1df634138a78c33f46dd33ceae04cc3f31"; "e996f3b425d03f0e1cf4ef0113da3fb6b59f82b0c4e83f922aa65f382bf23f7c40c91fbf15f13f7e9add99ed4ff73fe3b94663055e0240f1767713be82024075cc3e6ebc95f23fcf05e8b8b051f83f91"; "cd163adb32ff3f6fbb81d8f7c3fc3f0a81a355b9eef43fdbac32ceefefef3f3623079c5a4ee63f850cb28986f6bb3fea07aa18b338723fd150b152a96b773fc8e053fc3754963fe52699249296a53f8a"; "0fdc2d3dcebb3ffa3d777e8620c23fce408cfae1c0ce3ff42a337a5e3dd23f2bb9f6eff781ce3f6cdca8d60665e93f948efb455a89f33f02c610b03962f93f6ff59665b303ed3f03a0f35416a90740a7"; "4de68797a80d40ff8bdea02cdf034086e41f4fb5140240dfba4ca9fa3b0c40933cf9a54d450340cdf2904a0455f83f8fca0f7712d5e83f"];
["504b0304140000000000000021007aacee6928020000280200000b00140072685f657870732e6e70790100100028020000000000002802000000000000934e554d5059010076007b276465736372273a"; "20273c6638272c2027666f727472616e5f6f72646572273a2046616c73652c20277368617065273a202835332c292c207d20202020202020202020202020202020202020202020202020202020202020"; "202020202020202020202020202020202020202020202020202020200aad70bf7337047341b956e771370473415e3a407037047341cdfbd0ed3ef60b411542ceed3ef60b41573ccded3ef60b41c2e9cb"; "ed3ef60b41b8cbc0ed3ef60b419e4f8f3ed719f5407602df72c419f5400b35ef4722edc8403bff81f28695be4099834c90aeafb84053317931dfd6ad4057d6e50abb95a240c3e61fa8c5139740caa3d3"; "91a8d38c4004e057bf27816e40ec7b7637a49e614048605ceb85a75a406c188f3928415740dfc0fccebd952d40f4b91e8fe94f2940429baaa027a02840e9fa19e7b8812740dfead687efe5f33fa506d6"; "a8cb97ee3f5837aafe2559e73fd364ca4701b7df3f77945657d24ec93fa088569497e5b93f94d104c0255cab3f8ecae6b290e9f840af3fe6b290e9f840fc53eed7c8dada40be1c29524edada40f07ff7"; "15fe62c340e520f3a08546b54099b2519a9b02a840f4ad93775f549a40c9e41ced93c18a404eac48bac29d724080b2614ba50765402456dd662a255e40cc01e5af55e93b408e2040c2bac73740d38872"; "33cae92f40b68b3650717a2d40a026da417324054094224f5039f10440d27d25964499fb3f4268de41d868f03fc625446aa60edd3f"];
["504b0304140000000000000021006cd3439f88000000880000000c00140072685f6e756d5f732e6e70790100100088000000000000008800000000000000934e554d5059010076007b27646573637227"; "3a20273c6938272c2027666f727472616e5f6f72646572273a2046616c73652c20277368617065273a2028292c207d202020202020202020202020202020202020202020202020202020202020202020"; "20202020202020202020202020202020202020202020202020202020200a2000000000000000"];
["504b030414000000000000002100758e6e5288000000880000000c00140072685f6e756d5f702e6e70790100100088000000000000008800000000000000934e554d5059010076007b27646573637227"; "3a20273c6938272c2027666f727472616e5f6f72646572273a2046616c73652c20277368617065273a2028292c207d202020202020202020202020202020202020202020202020202020202020202020"; "20202020202020202020202020202020202020202020202020202020200a1500000000000000"];
["504b0304140000000000000021003ea198b118020000180200000d00140070645f636f656666732e6e70790100100018020000000000001802000000000000934e554d5059010076007b276465736372"; "273a20273c6638272c2027666f727472616e5f6f72646572273a2046616c73652c20277368617065273a202835312c292c207d2020202020202020202020202020202020202020202020202020202020"; "2020202020202020202020202020202020202020202020202020202020200af1b9ddc087076d3e63571f770e12553ed8e2427fde90a03ef12dd5788dbcdf3e5bb5a29b0d0d093fb04075a535c7283f56"; "ab74eb9338413f8698a1ceb7384d3f14f4893950e44b3faa871596d1d95a3f70eefd84902b693fde4c07a1a8cb8b3fd30bf852e5eba43fbdab44473040b63f621a30968704c43f87c3b5b7b3becc3f25"; "0406586e59d03fdab750aeb8e8da3ff386e0958952e93f27c7eb827916f23f3531612f18f4ef3fb911aa60ef36fb3fa71806d98e03044012c03cef9e3503408f8e5cb01273db3fa29df17f9f2dfb3f5a"; "0deec6acf00140e1cca5ee09bb004027f2329505e0f43fbbaa73d5b6f45e3f4c065e561eeb803fa0da1c34cb80703f3ad96b45029e973f567db7ad49e2a33f50fd59d94dccbe3fa4851846b3b0c23fe1"; "28de04da83cf3f25ed072dcaccd23fdc50d4f7ef48cc3fb275ac1fbeccea3fc23c98459ff4f33f71ddeab29c86f83f45f61106ba97f53facbd46abf25b0940ab387277ace40e4094c89c09f2480240d9"; "95395065670740b5608dbdec6f1140fad641cb537c084085bf7196bf87fb3f13366bade7dda93f"];
["504b03041400000000000000210017674c6518020000180200000b00140070645f657870732e6e70790100100018020000000000001802000000000000934e554d5059010076007b276465736372273a"; "20273c6638272c2027666f727472616e5f6f72646572273a2046616c73652c20277368617065273a202835312c292c207d20202020202020202020202020202020202020202020202020202020202020"; "202020202020202020202020202020202020202020202020202020200afa978e8da00f7841b4d3f98ba00f78410d7a7ea10b0d0e412c697ea10b0d0e411f637ea10b0d0e41de5d7ea10b0d0e41ad537e"; "a10b0d0e41b28d7ba10b0d0e413315ea77b649f6405f16d38ab449f64094ab517504eec840d8184b5099adbd406b2f358fb79cb8408f0b32e055b7ad40f51d7f2fa0bca240c3df639721d696406226b5"; "1d52c88d4050dbcd584c8c6e4051237bb5cfec6140fadd20eff6f15b408c81fcdf8d8457406a33d4b383b22f404796117f2c192c40e4b8ae5974582b40a64bb3894d2cfb3fe472bcfe6d4df13f9e247b"; "f89d3aed3f4cece9e9478be73fd4869ecdb432cc3f321708997056fa40f21508997056fa405d61e469af2bdc4058eb7b73aa2bdc400ccbb2a55e2bdc4096ffd33b4fe4c34071ab7d9cc313b540d24576"; "78424aa84096985d3556a7994054e57ce658358940eab06c4df4437340c87c1926c4b56540b0812bd270d35f40e94fc540c8b93e40ec8d3a69f3373740a1a9d1844476304036a38358729d2f4022ea76"; "9e338405406c69d44c49680540b6479e47a1fef53f04d5d98e7566e23f78dc0e18e07fbf3f"];
["504b030414000000000000002100c0958b8188000000880000000c00140070645f6e756d5f732e6e70790100100088000000000000008800000000000000934e554d5059010076007b27646573637227"; "3a20273c6938272c2027666f727472616e5f6f72646572273a2046616c73652c20277368617065273a2028292c207d202020202020202020202020202020202020202020202020202020202020202020"; "20202020202020202020202020202020202020202020202020202020200a1d00000000000000"];
["504b0304140000000000000021009689e1dc88000000880000000c00140070645f6e756d5f702e6e70790100100088000000000000008800000000000000934e554d5059010076007b27646573637227"; "3a20273c6938272c2027666f727472616e5f6f72646572273a2046616c73652c20277368617065273a2028292c207d202020202020202020202020202020202020202020202020202020202020202020"; "20202020202020202020202020202020202020202020202020202020200a1600000000000000"];
["504b03041400000000000000210040f2834720020000200200000d00140061675f636f656666732e6e70790100100020020000000000002002000000000000934e554d5059010076007b276465736372"; "273a20273c6638272c2027666f727472616e5f6f72646572273a2046616c73652c20277368617065273a202835322c292c207d2020202020202020202020202020202020202020202020202020202020"; "2020202020202020202020202020202020202020202020202020202020200ab8c66d9ff02d6f3e8558926e07dc613e0cf43c7fff01df3ea716bc76c69a123f83349cf1b265373f9b12b35d1932533f25"; "28a68ee3e7313fcb16d4caeb74503ff1de9c9c54fb5e3ff3dc623949316b3f50a80621ecb88d3f7df698c47b26a63fdbc29c302139b73fd47649db85c1c43fe76a1e7787c7cd3f80aeeab41cf6d03f33"; "5e9a9b30b1db3f7a8cba77a3d5e93fc60ad9ed3bdff13f5c8cadfa201cec3f07f68fab20fafc3f7480f29d091e04406764b106806302403b82d1d98c9ee63f32acf340ae8cf93f1d27da41dd3fff3f1c"; "48678d40cefb3fea15272b9be9f33ff75464c9e1f5ec3f998c8030a5c4e43f0c1243e53112ba3fe8b448408140853fc80d11457196723fee01fc7e0d0a993fba9adc3bb67ca43f43dd4605244bc03f09"; "217cd61b3ac33f0d6e91212250d03f641247e520a3d33f86e4c405fbfcca3f0d9e26dde3d0eb3f49fc696d5b6ef43f4c47f48b936ef73f4be5bbdadacbfa3fb8934e0c987c0a409718af40d9040e405c"; "c269ca695cfe3f0bf135d9317c0940295eac5b911c11400a1134673bd20340a2368a8dd97df63f4449e4c40a99e63f"];
["504b030414000000000000002100928fc7c220020000200200000b00140061675f657870732e6e70790100100020020000000000002002000000000000934e554d5059010076007b276465736372273a"; "20273c6638272c2027666f727472616e5f6f72646572273a2046616c73652c20277368617065273a202835322c292c207d20202020202020202020202020202020202020202020202020202020202020"; "202020202020202020202020202020202020202020202020202020200ac4e138ace35d7641341d76a8e35d76417467da24a5d20e418c63da24a5d20e41ba61da24a5d20e419f5eda24a5d20e41e444e3"; "c6ab2ef640f3f4668da42ef640a6f63baaa32ef640f8c88c53fcfec940d6146501cbf3bd404ab3847052f5b8405b55b0b6f5d5ad40648bd6d046dea2405e0935bd5e609640b2afdd8b2d188e4005228d"; "f6c2926e4055fa5f49995a6240edfb159e03da5d40a43760fc37f7574038f19acaa6af304069d91dec53e42e405379bdfc3e212e40a902e5d6ebf2f73fccd1b4f60131f33f59fba7e1e19def3f1d69f1"; "5744dde73f540c5fe2594ee03fe34ff2af384eca3f6993f9e6a984b93f7ba6923d8effaa3fb9f51c03365dfa40b09af8722664dc40bd32b4ff2164dc40afbb6aa7c663dc407f55f2a6f702c440892fcb"; "761f01b540693dfdd57b75a8403a9faa2c9f9a984009eb949cb993854004a5dd10a19c7340a321337f53ef6540a199a036f41161402638dc8b1a7f4040f0adc3dd962d3640ff2289f615e43140660397"; "5255133140b63821460d560740797e524337410740299763b1fb04fc3fc61a7e8a4028f23fbee1f1323f85e03f"];
["504b030414000000000000002100bd92aec388000000880000000c00140061675f6e756d5f732e6e70790100100088000000000000008800000000000000934e554d5059010076007b27646573637227"; "3a20273c6938272c2027666f727472616e5f6f72646572273a2046616c73652c20277368617065273a2028292c207d202020202020202020202020202020202020202020202020202020202020202020"; "20202020202020202020202020202020202020202020202020202020200a1f00000000000000"];
["504b030414000000000000002100758e6e5288000000880000000c00140061675f6e756d5f702e6e70790100100088000000000000008800000000000000934e554d5059010076007b27646573637227"; "3a20273c6938272c2027666f727472616e5f6f72646572273a2046616c73652c20277368617065273a2028292c207d202020202020202020202020202020202020202020202020202020202020202020"; "20202020202020202020202020202020202020202020202020202020200a1500000000000000"];
["504b030414000000000000002100c20ae3a118020000180200000d00140063645f636f656666732e6e70790100100018020000000000001802000000000000934e554d5059010076007b276465736372"; "273a20273c6638272c2027666f727472616e5f6f72646572273a2046616c73652c20277368617065273a202835312c292c207d2020202020202020202020202020202020202020202020202020202020"; "2020202020202020202020202020202020202020202020202020202020200a0a3f43fc6e015b3e8f90453c35396a3e181eb6ebbd2e623e30361c6c2199e03ebb0ba4008565133faf69e42d1434383f0f"; "b3764019bc533fdec85201b806343f25d347d6abab513f92358911ca4b603fecad04ecf1856d3f4223a2cc5eea8f3fa18a172dfa8fa73f675ec50c1e56b83fc53b64c713a1c53f53bc06d1f7adce3fad"; "16f638d7d8d13ffc9d1d676e2edd3ff770cd094f08eb3f1ea0f241ab13f23fcbaf2a02b0e8e43faf93fc83bfdefd3fcae26d5bf2c10340d5243445a9280140ff4242232d3eed3f79176c3aa224fc3f33"; "e00698b31700400ef4c6095947fa3fdcc6cb20bb33fe3f406c781875f8f63fb34073e81557c93f00ef42a817f0853ffdb430031be3763f4021cc0235019b3fbb485e114924a43fbda5f5ef4a42c13fea"; "9236946fddc33faea4d199a5ffd03fd23bdcc6c117d43f2284a2525f97cf3f6937f70b23aeeb3f076a6a5906cdf53f203cd8ac7406f73f6a201cd2b203fe3f2142edb5b79b0c409b485ce383110e40b4"; "5ecb95e6b4f73f599b472f87f60d40b6d9fecb9d6c12409a23d2d453eb0540af8334d71a5df13f"];
["504b030414000000000000002100cbd0d21018020000180200000b00140063645f657870732e6e70790100100018020000000000001802000000000000934e554d5059010076007b276465736372273a"; "20273c6638272c2027666f727472616e5f6f72646572273a2046616c73652c20277368617065273a202835312c292c207d20202020202020202020202020202020202020202020202020202020202020"; "202020202020202020202020202020202020202020202020202020200a47fdd07233557541987bfa7033557541ddf6526e3355754154161026df5e0f411f101026df5e0f411f0d1026df5e0f41cf0710"; "26df5e0f410ca5cc830b82f640a6c8021a0382f640e7782f910182f6403b1ca41369d4cb40eccd3b87d25cbe40205ae22a8451b940644d1df63d03ae405fce64a97e02a3409364a134bd439640c519ab"; "993f618c401f5ed37c88786f40e307e06e23cc62406b129cece3406040f3433e51f4425440cf954e4a126631404f39deda22ce3040dcf2087577853040c55670f20133f63fa94ec604beb7f33f98eef6"; "0d76def13f6cc71441b65beb3f27cac54366a9d33f32710140c5fac03f1ddba2a3440db13f88cec14cc2c7fa40f7f0ffd9b4e6dc400a3a6ec3b1e6dc40b24ef4f3ffe5dc40d39dde32983dc440e8fcce"; "e1bef2b44058a59f4b8a91a840a5063e68a4e1974098b41d3e456281409648e81f00db7340dc8c6867d0a76540904fdf8f2ee16240780fbe25f04e41403927b7d7ba63354038ddfdddb0ea3340a232af"; "a690f4324000f5748fd4ce0840ce22085846b60840a39dd8fba179fb3f2d95ea9168d0eb3f"];
["504b030414000000000000002100bd92aec388000000880000000c00140063645f6e756d5f732e6e70790100100088000000000000008800000000000000934e554d5059010076007b27646573637227"; "3a20273c6938272c2027666f727472616e5f6f72646572273a2046616c73652c20277368617065273a2028292c207d202020202020202020202020202020202020202020202020202020202020202020"; "20202020202020202020202020202020202020202020202020202020200a1f00000000000000"];
["504b030414000000000000002100eb8ec49e88000000880000000c00140063645f6e756d5f702e6e70790100100088000000000000008800000000000000934e554d5059010076007b27646573637227"; "3a20273c6938272c2027666f727472616e5f6f72646572273a2046616c73652c20277368617065273a2028292c207d202020202020202020202020202020202020202020202020202020202020202020"; "20202020202020202020202020202020202020202020202020202020200a1400000000000000"];
["504b03041400000000000000210047e927dd20020000200200000d001400696e5f636f656666732e6e70790100100020020000000000002002000000000000934e554d5059010076007b276465736372"; "273a20273c6638272c2027666f727472616e5f6f72646572273a2046616c73652c20277368617065273a202835322c292c207d2020202020202020202020202020202020202020202020202020202020"; "2020202020202020202020202020202020202020202020202020202020200a87af41f9d40ee03e8f77ce62d8b3143f3d658e6edc44353f0a2851b7b85d483f0f8973985fcf373fe2dea05908071d3fd1"; "69dc8ac9763d3fc0a8bd0111e4533fdba28acb7563613fc13d72d1bcf7703fdabb87f8c76b913feb976eb19937a93f9ff6f4dd008fb93f640e96726250c63f103780235720cf3fa3957b456a58d23fc2"; "35221e7542df3facfe15edea98ec3f59c48c94c2a7f23fd64bc8c88a42e93f31b532ecdd11ff3f3a78cb1c1ca80340fe296925142500408e02b0277784ef3f6c51f6544278fb3f2f8b89ade289fd3f6f"; "746f9259fff63f1159349895ccf33fd7a787538794ef3f1008bc4d2e08e73f0318f2436149853fc1a6230fe99e9f3fe8ca40a332f0a43fd63efb3de3f6c13f576dd519d0b1c43f61cbc0e41c46d13f4e"; "e65aefe305d43f047d71518407d33f8b5e699bda4cec3f2ce0921a142ef73f0280a3090e19f73f5600a832bc2efc3f04da570191ae0e40b9596e0fcb250e4070e726facd3bed3fa5e42278162d1140e1"; "9819b2fc67134044d922e5177004400a4a50583f91ec3ffee0377818e5ea3fae970fdfb22de53f3c8b03a31cd5953f"];
["504b0304140000000000000021002d93553a20020000200200000b001400696e5f657870732e6e70790100100020020000000000002002000000000000934e554d5059010076007b276465736372273a"; "20273c6638272c2027666f727472616e5f6f72646572273a2046616c73652c20277368617065273a202835322c292c207d20202020202020202020202020202020202020202020202020202020202020"; "202020202020202020202020202020202020202020202020202020200acd64b678489910412064b67848991041f563b67848991041b463b67848991041835ab67848991041eca7b32b8810f74049b672"; "4b8710f7408cb5f1db8610f7409b3505a58510f7408bf589ce0efdcd403cec2d979747bf406f3dd67dd3bfb940ce35115afcb2ae40114b837dbf4ba3401524e8eb8fa596401d5850ddcba18a40b5c438"; "e5ce0e7040238f4b29802863406f800a66f0ad604024c9f973278140409de8d8ccaac232404e44262c33753240940541a4ea4032404962813e1937f63febbaf6ded679f43fcabd054e6ee8f23f929bc4"; "a56309ed3fa14804cf2601dc3f4f59ffe814e3c83f493d89c6b4f3b43fb60d91713da4fb40e46888738edddd40ae8b6acb75dcdd40d9c487a214abc440a3870f2bfefcb4404536d400b6c7a840797cff"; "987e319840b6c839b5d73b80404e4b7ba7851274404d052f5cba1e6640aa79c996a2b66340ddd6d98a83a63f40f33b4ae86e9d3540c748e52a576935404eac8b34840e35405fa18c010c820a403765a1"; "e4db730a407a9c3314baa2fe3f5fde2c3f26c6f13f2102f052b58dda3f12a47de21fefc83f094073208616a93f"];
["504b0304140000000000000021002392040f88000000880000000c001400696e5f6e756d5f732e6e70790100100088000000000000008800000000000000934e554d5059010076007b27646573637227"; "3a20273c6938272c2027666f727472616e5f6f72646572273a2046616c73652c20277368617065273a2028292c207d202020202020202020202020202020202020202020202020202020202020202020"; "20202020202020202020202020202020202020202020202020202020200a1e00000000000000"];
["504b0304140000000000000021009689e1dc88000000880000000c001400696e5f6e756d5f702e6e70790100100088000000000000008800000000000000934e554d5059010076007b27646573637227"; "3a20273c6938272c2027666f727472616e5f6f72646572273a2046616c73652c20277368617065273a2028292c207d202020202020202020202020202020202020202020202020202020202020202020"; "20202020202020202020202020202020202020202020202020202020200a1600000000000000"];
["504b0304140000000000000021007595e3a320020000200200000d001400736e5f636f656666732e6e70790100100020020000000000002002000000000000934e554d5059010076007b276465736372"; "273a20273c6638272c2027666f727472616e5f6f72646572273a2046616c73652c20277368617065273a202835322c292c207d2020202020202020202020202020202020202020202020202020202020"; "2020202020202020202020202020202020202020202020202020202020200a79e09650da12983efe69b07441d5bb3ec1f35c0bda48d23e08d0676ddc58ca3ec83b91440e230f3fc83e0734671b3c3f2a"; "b7a8f573f75b3fb8e99a705fba723f7349ca1fea7d803f3b207fb2bf26833fa3c003d5b66f933fb3ff2e2ffe7fab3f4df14974a0f2ba3f86e9f806c4b4c63f188127a00f3bcf3f3e6ce1f4112dd23fe2"; "087900c038df3f5f3a9312ea41ec3fd2d5b148f1e2f13f5c10555ede05ef3f753f8c9d0130014012e0a52b01f904402ccda7c5c54a00409c9102ef6eaff13f175a353b38ecfc3ff48275c00092fd3f13"; "d7eb3970d9f53f3ef163d27e45f23feda4b26753eaef3fea70fddfc829e83ff7a914313c55843fccd10ff741b3a93f5feedfb34a009e3febbfd00ce01fbf3f6fc20754fd84c53f7e58027dfcf4d03f8d"; "d3ff3a84ccd33ffebeadd62121d53fa46ac94ef29fea3f51c1dcf99c2ff73fa27af5593a8ff53f0d2c132cfd320040dfddec8f9d29104080f393ff1fef0d4021816acc5bc7ef3f5c83971e9dab114084"; "e8378499aa12409638f0dd59a903406be85c1f155ceb3f57adc19bf843f03f7ad83aafb218e53f0769d4faccba953f"];
["504b03041400000000000000210076a1ff0120020000200200000b001400736e5f657870732e6e70790100100020020000000000002002000000000000934e554d5059010076007b276465736372273a"; "20273c6638272c2027666f727472616e5f6f72646572273a2046616c73652c20277368617065273a202835322c292c207d20202020202020202020202020202020202020202020202020202020202020"; "202020202020202020202020202020202020202020202020202020200a1e11d39fc17141411d11d39fc17141410c11d39fc17141410c11d39fc1714141515bbfca168bf140265bbfca168bf140095bbf"; "ca168bf140ee5abfca168bf140ec59bfca168bf140cb9bf9bfe503d64073743d07a0a6c740923d6e416354bb40d27f26eac118b0405e44dfda88cfa340e200cba7e1299740b45a9a7ce2a48940c33ed7"; "366c8a7040b399c3aa17c26340fb63a2c9e6ca614001f96ed6074c3f4031a13ea7321b35404adf3ef92fc13440ac235001f1693440ec78f5c1cf5ef63f1872bb7a7cbcf43f0b0227c29e8df33fd056d7"; "e8052cf13f5ca3df901db2d73f2433cbd2066cca3fdc60653a2bfcb83fbf8dd42535b0de40df8816c733b0de4019e2281cd94ac940e10758b214e1c340a0c3131f7deeb44017a6fb2cde18a9403a80a9"; "24484d9940ad9f1f3a1c8580404806adcc91807440317f7b0729f26640224cb7d90b856540396da62efb943a4098cf854c6a1937408c8460a9f4c536403e0617ecac4c0c40a1bca2ecf7380c406fc209"; "8c33280c40dbf1b49ceec0fe3f927aba841d1de53f9c93d1cb5fb2d53fa5b44e9d47b0c83f53a931f6d02db03f"];
["504b0304140000000000000021002392040f88000000880000000c001400736e5f6e756d5f732e6e70790100100088000000000000008800000000000000934e554d5059010076007b27646573637227"; "3a20273c6938272c2027666f727472616e5f6f72646572273a2046616c73652c20277368617065273a2028292c207d202020202020202020202020202020202020202020202020202020202020202020"; "20202020202020202020202020202020202020202020202020202020200a1e00000000000000"];
["504b0304140000000000000021009689e1dc88000000880000000c001400736e5f6e756d5f702e6e70790100100088000000000000008800000000000000934e554d5059010076007b27646573637227"; "3a20273c6938272c2027666f727472616e5f6f72646572273a2046616c73652c20277368617065273a2028292c207d202020202020202020202020202020202020202020202020202020202020202020"; "20202020202020202020202020202020202020202020202020202020200a1600000000000000"];
["504b0304140000000000000021004058425120020000200200000d00140073625f636f656666732e6e70790100100020020000000000002002000000000000934e554d5059010076007b276465736372"; "273a20273c6638272c2027666f727472616e5f6f72646572273a2046616c73652c20277368617065273a202835322c292c207d2020202020202020202020202020202020202020202020202020202020"; "2020202020202020202020202020202020202020202020202020202020200a4410a76978cc703e125f999246b2a03eb86f170565adbe3ef2da8b6488d4d03ef7ddae08c10b963e1616e3eacf65113f6f"; "9ab22197cd3d3f75c4ecfd41015d3fc92cd799dd0f733f21177a09526e7f3fb2a56a20817e813fae8eeafe7a40953f701789916cecab3fa5e2c6f285f9bb3f08540e6738f1c63f6639ba4c1a74cf3fe7"; "8630c84640d23fc9e507de9056e03f5567a79956c6ec3f52df089157bbf13fbd4b9dcf674ef03fa5c5a2dfda030140e4206dba73020440884f779413cdfc3f59be295f9c27f33f8c71986a7fe6fb3ff2"; "a89b60f348fb3ffc6065dc1474f33f78276bbf1b57f53fd185459062adf23f426313d91c298c3f29817ec8db9ca83f856fd40a91eba53fde6e0ee6687bbd3f6ef0fc29093ac73fd848f2c4199bd03fa3"; "2107439ce8d33f075dbbdc4e57d73fed84063f6483eb3fe5631e21f306f73f512cf666de0df43f0c46ec9ec8640240f68f79a4cda61040ab5d219d9bf00c402e5e318d61c0fb3f76b87a699b87124090"; "ab95c8361f12400e3e79623fc80240e5a8debcc3adf53f8eebb20c38e3f43fbf325327ecb0e93f25493044eda6b33f"];
["504b030414000000000000002100e90e434b20020000200200000b00140073625f657870732e6e70790100100020020000000000002002000000000000934e554d5059010076007b276465736372273a"; "20273c6638272c2027666f727472616e5f6f72646572273a2046616c73652c20277368617065273a202835322c292c207d20202020202020202020202020202020202020202020202020202020202020"; "202020202020202020202020202020202020202020202020202020200a2f74879bc7c246412f74879bc7c246412f74879bc7c246412f74879bc7c24641593568a71c0cf3403b3568a71c0cf3403b3568"; "a71c0cf3403b3568a71c0cf3403b3568a71c0cf3403b3568a71c0cf3409e443f3941e1d540160d529284a6c540b6ed51e41d1dbb40ed907d66852ab040c10bc0149e2ea4404953cdad125b97403c4593"; "f669218840bfd6a6cfa68e704066e8b63dad916440a8e1e23d43116240caeccb49bf0e4040636ccef10bbb3640d955c6db6d93364014944240935e3640a461a55340c7f73fa130c89c1417f73ff4b121"; "1b5825f63f4fa337f7e0cfea3fa66a60d40727d43fafb4219a7d3ecb3fc93127d7b093e040520afd38b093e040990f2c1624a8c8405f06341304cac440ba74433638eeb440a72760ff617ba94074ebbd"; "b2ec1c9a40342c087e32918040bd76b82f9d6a744023cfe1e0fb0e6840e3102dc5dd016640f1e6a31f284e3940196d4937d3213940612fc827e0143940c19cefcf6d3b0e401b0eb52530210e40c3e03f"; "ed62060e405afce6e86a6f0040e8f105ac5967e23f2948c2934882d43feea9db2d9d05c63f4fcfff8394e1b73f"];
["504b0304140000000000000021002392040f88000000880000000c00140073625f6e756d5f732e6e70790100100088000000000000008800000000000000934e554d5059010076007b27646573637227"; "3a20273c6938272c2027666f727472616e5f6f72646572273a2046616c73652c20277368617065273a2028292c207d202020202020202020202020202020202020202020202020202020202020202020"; "20202020202020202020202020202020202020202020202020202020200a1e00000000000000"];
["504b0304140000000000000021009689e1dc88000000880000000c00140073625f6e756d5f702e6e70790100100088000000000000008800000000000000934e554d5059010076007b27646573637227"; "3a20273c6938272c2027666f727472616e5f6f72646572273a2046616c73652c20277368617065273a2028292c207d202020202020202020202020202020202020202020202020202020202020202020"; "20202020202020202020202020202020202020202020202020202020200a1600000000000000"];
["504b030414000000000000002100ffd5e83728020000280200000d00140074655f636f656666732e6e70790100100028020000000000002802000000000000934e554d5059010076007b276465736372"; "273a20273c6638272c2027666f727472616e5f6f72646572273a2046616c73652c20277368617065273a202835332c292c207d2020202020202020202020202020202020202020202020202020202020"; "2020202020202020202020202020202020202020202020202020202020200ad6c9d583028c553e06331dd1790c573e9580b0c463e9943e1300ba0eeccfed3e54725908374c1b3fa41d93ae41413e3f3d"; "389e7fa6be553f1ae706609c12423f8a59a4a535c1563f4695b5723394583f827e692be0f9743f0992e79b0023933f47a3702d9894aa3f40fd6a3f7df6bb3fa87dba831601c73f0824521f7c8fcf3fe1"; "6b09e10c89d23f67500ec63449e13f0d4eeda3c290ed3f68f1ac6c37b6f13f5dc6b201f0e7f13f9b93d87b4729014069d56254096c0340adee24f2c7e7f83f9dd645c72d4ff43f284cc53c9e99fa3fb6"; "443a3f0f53f83fbcb6d3d1cf78f43feff43ef0cde4f63fbcd9fc350e38f33f8e8ad0867ae6863f65bfe8e58aa6923f86b404bc9a6bac3fd152479ae244a93f8046b9340410bf3f9710c65bb090c83fae"; "6d57be5db4d03f6aa1d69ae1efd33f4e197f2470a1d93feec21160c016ed3f2c18444d3501f73f327b15d3c479f23fe4049f1e1f7104409adc7222c1de1040c3ede5f75f550b4048ed7c25cdde0240fd"; "d5552d9af61340f57d5ebe4f171240e414c1751f7000401467b87a44bff93f5696fe95c75cf63f8d90f9393042e93f443ecd31cd5ab33f"];
["504b030414000000000000002100e3da72a528020000280200000b00140074655f657870732e6e70790100100028020000000000002802000000000000934e554d5059010076007b276465736372273a"; "20273c6638272c2027666f727472616e5f6f72646572273a2046616c73652c20277368617065273a202835332c292c207d20202020202020202020202020202020202020202020202020202020202020"; "202020202020202020202020202020202020202020202020202020200a6dfd5330e73385412e643c2ee73385412b3cf32ec1fb12415337f32ec1fb1241bb36f32ec1fb12415336f32ec1fb1241e934f3"; "2ec1fb1241332896af8dd4fc4058dcb9378dd4fc40772753092d31cc4005ac9d8f4350ca402a4995b98c3fc14008120ade9758b840c76258f12a59af4010b35e8eda10a4402f9f128cf17997405c5aa9"; "cc994e8640f093743cc2807040d215c490137d6540a50a5ee3b80862408fca0e4323413b40dcad762b27a038409686736773883840daa6633e795b3840ad0211db5666f83f9732bd33a210f83ffdfd1a"; "ce0e71f73f0caf0facbcace13f720123defdb9d33fba2a4ed9cceccc3f82ab477670f20041d9b6e81c6a9be14074d251106a9be1401f814c96cf6dc9405cb9ce0113ccc54077679bc40e62b54038b5d3"; "4656d1a94055c53473f6a59a409a3f062fd48e80408b46dba648307440e2aa7064ba556940da54162768e465406828687024c63a4026d3a781f3c13a40256d0f9a16c03a400d6a27b88a1510407d4301"; "9da9091040caf1a20209fc0f40fe66b8ae8e570140dc6e0d0bba0ae33fdc4eb55d55c8d53f1117fe1f477fc73f8f13fac538ccb93f"];
["504b0304140000000000000021002392040f88000000880000000c00140074655f6e756d5f732e6e70790100100088000000000000008800000000000000934e554d5059010076007b27646573637227"; "3a20273c6938272c2027666f727472616e5f6f72646572273a2046616c73652c20277368617065273a2028292c207d202020202020202020202020202020202020202020202020202020202020202020"; "20202020202020202020202020202020202020202020202020202020200a1e00000000000000"];
["504b03041400000000000000210008894b1088000000880000000c00140074655f6e756d5f702e6e70790100100088000000000000008800000000000000934e554d5059010076007b27646573637227"; "3a20273c6938272c2027666f727472616e5f6f72646572273a2046616c73652c20277368617065273a2028292c207d202020202020202020202020202020202020202020202020202020202020202020"; "20202020202020202020202020202020202020202020202020202020200a1700000000000000"];
["504b030414000000000000002100a0e6ab1820020000200200000c001400695f636f656666732e6e70790100100020020000000000002002000000000000934e554d5059010076007b27646573637227"; "3a20273c6638272c2027666f727472616e5f6f72646572273a2046616c73652c20277368617065273a202835322c292c207d202020202020202020202020202020202020202020202020202020202020"; "20202020202020202020202020202020202020202020202020202020200ab45ef2f7cbfe593eaef6b3c3249d5d3e12f6713b7dcc933eb2f22b257c6def3e4fe980dfb4dc1c3fd721d2f68900403f7de7"; "b83ef003573faffc8ee6f153433f97ed5335b344583fc5afce587d6e5a3fe10831f25364763f667f568c5129943fe8c4adb161bfab3f0d5be744f7e0bc3f356fe1078480c73f13810890fdcfcf3fb2da"; "a4060215d33fa56bcd80463ee23f2b75b4060167ee3f85e1f11a63a6f13ff95f8ca5e928f33f2af7a9a759ed0040b8467428cf73024023de7a2b0257f33ff178a4bcb118f53f05b8e5b8835af93fd837"; "ccff4453f53ff6592cf303e4f93f5598826c3552fb3f146f03aa5061f83f53f2d4db5a1e883f84d51ecbbc9a933fe8fd796bb2a3ad3fa5c43c2e5a6caa3fbfa8ad62fe03c03fcdd8ca41a03bc93f0d63"; "31fc4decd03f226f574594c8d33feb8b340058d8db3f7cc8a4c192afee3f5b069f1c1729f73f3859353f47ccf03f789671d9bdfa064091b50557407411408831815e2c260a404e509d0a72bb0740f066"; "135124791540acad29e7131312407f1f46708ccdf63f337a6a2664c702402f95a74d4ae2f63f080e6db75085a73f"];
["504b03041400000000000000210081b5591620020000200200000a001400695f657870732e6e70790100100020020000000000002002000000000000934e554d5059010076007b276465736372273a20"; "273c6638272c2027666f727472616e5f6f72646572273a2046616c73652c20277368617065273a202835322c292c207d2020202020202020202020202020202020202020202020202020202020202020"; "2020202020202020202020202020202020202020202020202020200ab16472813d978341c47736803d978341acc5f45eda03134138bff45eda03134182bef45eda031341f7bdf45eda03134142bcf45e"; "da0313413d0dc848ffe4fc40c3d2f4bffee4fc406f974575368bcc405f7182ecc4a0ca400c746d788571c140b87ab459eb72b840f33e7bd574b1af40c50112332942a440326c699712d29740bb2732b8"; "5a96844087398201787a70401f1a85143272664051237dc5e62862400377e957f9cb3a4011d64524686c3a4021112e1533613a4061a475577f3c3a403dd1b925fa03f93f2b37b642d9c5f83f36626f78"; "823bf83f785c8053ce1add3fbec9da057102d53f9c8ab9ed689fc43f0447bd776dfc004165ac34ba93b4e1407ae354ab93b4e140fe66fb7b9db7c94056fc9a7a89e8c540954283bbb496b5402753760a"; "15f4a940590e80157df29a40664734a128a480400f3d2bd668e173407d9fb945a59c6a40877c612a53906540f6f4c1cebb963c4031e35ef33b963c404ed90976ea953c40ba7cf40419131140c7dc2468"; "a9061140dbd1983bfaf910406022c3df1439024018fb3586eb16e43f415f0d63aea1d43fcfe7b49be830bb3f"];
["504b0304140000000000000021002392040f88000000880000000b001400695f6e756d5f732e6e70790100100088000000000000008800000000000000934e554d5059010076007b276465736372273a"; "20273c6938272c2027666f727472616e5f6f72646572273a2046616c73652c20277368617065273a2028292c207d20202020202020202020202020202020202020202020202020202020202020202020"; "202020202020202020202020202020202020202020202020202020200a1e00000000000000"];
["504b0304140000000000000021009689e1dc88000000880000000b001400695f6e756d5f702e6e70790100100088000000000000008800000000000000934e554d5059010076007b276465736372273a"; "20273c6938272c2027666f727472616e5f6f72646572273a2046616c73652c20277368617065273a2028292c207d20202020202020202020202020202020202020202020202020202020202020202020"; "202020202020202020202020202020202020202020202020202020200a1600000000000000"];
["504b0304140000000000000021006e66db9028020000280200000d00140078655f636f656666732e6e70790100100028020000000000002802000000000000934e554d5059010076007b276465736372"; "273a20273c6638272c2027666f727472616e5f6f72646572273a2046616c73652c20277368617065273a202835332c292c207d2020202020202020202020202020202020202020202020202020202020"; "2020202020202020202020202020202020202020202020202020202020200aae240621aef5433e8ab021fdacb8563ee4f2ca250141613ea23ebbb8ec79953ecea1dee81594f03e8384f7f90f3d1e3f17"; "0a75821ab0403f47944987cadb573fb002e4ec1a97443fd5e0320fdea2593fc08d17cf07b95c3f237f7f178613783f75e9197b1562953fa84cc23b1a02ad3f28d552a08dd8bd3fc8c019c3b705c83f0a"; "c7cb0dfcfdcf3f2aabfe92ade3d33f798fd73c055ee33ff733b819ac8fef3f577155ed19b5f13f50636fa20c2bf43f832bb4f85eb5004025bc49fede90014066a3e2555b6ce23f50e1b60ee30bfa3f81"; "dcc216cbe9fd3f14e3745b8b98f83f58585f65b71cfa3f89539c29982ffa3f6f0ce91d5afff63f29cee9aa9cfe883f6d2c78a50074943f2be36d5dbb74ae3faf336d0315cdab3fc767caeac067c03faa"; "9acae312e9c93f2a768f385127d13f49a593b02f81d33f621a3f299d35de3ff6f8291d5b5df03f23157fafd5b1f73f14de0d8abf16ee3fb7dc744203fe0940917ef895395d12401a5bc285e537094065"; "828cb5956d0c40bab9148ba3b21640f0d91956f7ad11401aa1d2b0ba82f33f7b6c2fbe44e9014018e215177af2f53fbec93f440de0a93f"];
["504b0304140000000000000021009f66eba228020000280200000b00140078655f657870732e6e70790100100028020000000000002802000000000000934e554d5059010076007b276465736372273a"; "20273c6638272c2027666f727472616e5f6f72646572273a2046616c73652c20277368617065273a202835332c292c207d20202020202020202020202020202020202020202020202020202020202020"; "202020202020202020202020202020202020202020202020202020200a698537e6656182412fd646e5656182416301ace465618241c23b53b758361341ee3253b758361341fa3153b7583613414d3153"; "b758361341f72e53b7583613418f4a156e602efd4076f6dec65f2efd40e14866b6832fcd40602a3ba1d323cb40856fa54561c2c140f63fc6b05aa3b840bd052161fd07b040c2d9ebc4137aa4404bff9e"; "c836329840cdf48b39531b8340ab67144df663704004aed9d67a686740ef9181f6bb4f6240945361096a463c4025c9745ca5313c404f074db3092d3c40e6a0a9c8d7f93b40e67ac03f1172f93f630583"; "937355f93f8459794de201f93f8c3199a8d97bde3f0cdd156a36f7d43fa107ed42d1dfc63fe5b462ec7c290141ac10b62cdceee140ba778c16dceee140a670bb5dc238ca40ec82fd693d09c640d5b9f7"; "6911cab540f4d0b44ce00caa40db65a203d4189b406cd1556edac88040a5c6c012f2687340a5632e55ffef6b406be6e4c143646440fe62d410e0a13e40c2dd90b8d3a13e4097665bc2c8a13e401e333b"; "819a04124071b4727ef0f41140031adff39fe011405e355ece7cb5e73ff7602aaa82e3e33fbd2136bab8afd53fe9caa6793a2ebf3f"];
["504b030414000000000000002100bd92aec388000000880000000c00140078655f6e756d5f732e6e70790100100088000000000000008800000000000000934e554d5059010076007b27646573637227"; "3a20273c6938272c2027666f727472616e5f6f72646572273a2046616c73652c20277368617065273a2028292c207d202020202020202020202020202020202020202020202020202020202020202020"; "20202020202020202020202020202020202020202020202020202020200a1f00000000000000"];
["504b0304140000000000000021009689e1dc88000000880000000c00140078655f6e756d5f702e6e70790100100088000000000000008800000000000000934e554d5059010076007b27646573637227"; "3a20273c6938272c2027666f727472616e5f6f72646572273a2046616c73652c20277368617065273a2028292c207d202020202020202020202020202020202020202020202020202020202020202020"; "20202020202020202020202020202020202020202020202020202020200a1600000000000000"]].
Definition fpi_records : list (list string) := [
["504b0102140314000000000000002100fc2bb59820010000200100000c0000000000000000000000800100000000685f636f656666732e6e7079"];
["504b01021403140000000000000021007559e60120010000200100000a000000000000000000000080015e010000685f657870732e6e7079"];
["504b0102140314000000000000002100eb8ec49e88000000880000000b00000000000000000000008001ba020000685f6e756d5f732e6e7079"];
["504b01021403140000000000000021003ab1356688000000880000000b000000000000000000000080017f030000685f6e756d5f702e6e7079"];
["504b0102140314000000000000002100fcb1bee728010000280100000d000000000000000000000080014404000068655f636f656666732e6e7079"];
["504b01021403140000000000000021001008b06528010000280100000b00000000000000000000008001ab05000068655f657870732e6e7079"];
["504b0102140314000000000000002100758e6e5288000000880000000c000000000000000000000080011007000068655f6e756d5f732e6e7079"];
["504b01021403140000000000000021003ab1356688000000880000000c00000000000000000000008001d607000068655f6e756d5f702e6e7079"];
["504b01021403140000000000000021001b090f4148010000480100000d000000000000000000000080019c0800006c695f636f656666732e6e7079"];
["504b01021403140000000000000021004d526d3848010000480100000b00000000000000000000008001230a00006c695f657870732e6e7079"];
["504b01021403140000000000000021003a9bc10588000000880000000c00000000000000000000008001a80b00006c695f6e756d5f732e6e7079"];
["504b01021403140000000000000021003ab1356688000000880000000c000000000000000000000080016e0c00006c695f6e756d5f702e6e7079"];
["504b0102140314000000000000002100fdeb4d0048010000480100000d00000000000000000000008001340d000062655f636f656666732e6e7079"];
["504b01021403140000000000000021005dcbce7e48010000480100000b00000000000000000000008001bb0e000062655f657870732e6e7079"];
["504b01021403140000000000000021003a9bc10588000000880000000c000000000000000000000080014010000062655f6e756d5f732e6e7079"];
["504b01021403140000000000000021003ab1356688000000880000000c000000000000000000000080010611000062655f6e756d5f702e6e7079"];
["504b010214031400000000000000210053a4f9dac0010000c00100000c00000000000000000000008001cc110000625f636f656666732e6e7079"];
["504b0102140314000000000000002100a20c5ea6c0010000c00100000a00000000000000000000008001ca130000625f657870732e6e7079"];
["504b01021403140000000000000021003a9bc10588000000880000000b00000000000000000000008001c6150000625f6e756d5f732e6e7079"];
["504b010214031400000000000000210096a315bf88000000880000000b000000000000000000000080018b160000625f6e756d5f702e6e7079"];
["504b01021403140000000000000021009d5118f8b0010000b00100000c0000000000000000000000800150170000635f636f656666732e6e7079"];
["504b010214031400000000000000210077fab614b0010000b00100000a000000000000000000000080013e190000635f657870732e6e7079"];
["504b010214031400000000000000210008894b1088000000880000000b000000000000000000000080012a1b0000635f6e756d5f732e6e7079"];
["504b010214031400000000000000210096a315bf88000000880000000b00000000000000000000008001ef1b0000635f6e756d5f702e6e7079"];
["504b0102140314000000000000002100760cad94b8010000b80100000c00000000000000000000008001b41c00006e5f636f656666732e6e7079"];
["504b0102140314000000000000002100e7b3ea11b8010000b80100000a00000000000000000000008001aa1e00006e5f657870732e6e7079"];
["504b010214031400000000000000210008894b1088000000880000000b000000000000000000000080019e2000006e5f6e756d5f732e6e7079"];
["504b010214031400000000000000210011808e1a88000000880000000b00000000000000000000008001632100006e5f6e756d5f702e6e7079"];
["504b0102140314000000000000002100f7ebaf07b8010000b80100000c00000000000000000000008001282200006f5f636f656666732e6e7079"];
["504b0102140314000000000000002100cb9374feb8010000b80100000a000000000000000000000080011e2400006f5f657870732e6e7079"];
["504b010214031400000000000000210008894b1088000000880000000b00000000000000000000008001122600006f5f6e756d5f732e6e7079"];
["504b010214031400000000000000210011808e1a88000000880000000b00000000000000000000008001d72600006f5f6e756d5f702e6e7079"];
["504b0102140314000000000000002100af099da0c0010000c00100000c000000000000000000000080019c270000665f636f656666732e6e7079"];
["504b01021403140000000000000021003369a07ec0010000c00100000a000000000000000000000080019a290000665f657870732e6e7079"];
["504b0102140314000000000000002100a49b6bc988000000880000000b00000000000000000000008001962b0000665f6e756d5f732e6e7079"];
["504b010214031400000000000000210011808e1a88000000880000000b000000000000000000000080015b2c0000665f6e756d5f702e6e7079"];
["504b0102140314000000000000002100f7dd9e1cb8010000b80100000d00000000000000000000008001202d00006e655f636f656666732e6e7079"];
["504b0102140314000000000000002100a03e19c8b8010000b80100000b00000000000000000000008001172f00006e655f657870732e6e7079"];
["504b010214031400000000000000210008894b1088000000880000000c000000000000000000000080010c3100006e655f6e756d5f732e6e7079"];
["504b010214031400000000000000210011808e1a88000000880000000c00000000000000000000008001d23100006e655f6e756d5f702e6e7079"];
["504b01021403140000000000000021002916bc4ed8010000d80100000d00000000000000000000008001983200006e615f636f656666732e6e7079"];
["504b01021403140000000000000021009c9bc1c5d8010000d80100000b00000000000000000000008001af3400006e615f657870732e6e7079"];
["504b0102140314000000000000002100479ce44788000000880000000c00000000000000000000008001c43600006e615f6e756d5f732e6e7079"];
["504b010214031400000000000000210011808e1a88000000880000000c000000000000000000000080018a3700006e615f6e756d5f702e6e7079"];
["504b0102140314000000000000002100f1542f82d8010000d80100000d00000000000000000000008001503800006d675f636f656666732e6e7079"];
["504b0102140314000000000000002100275aa5bfd8010000d80100000b00000000000000000000008001673a00006d675f657870732e6e7079"];
["504b0102140314000000000000002100479ce44788000000880000000c000000000000000000000080017c3c00006d675f6e756d5f732e6e7079"];
["504b010214031400000000000000210011808e1a88000000880000000c00000000000000000000008001423d00006d675f6e756d5f702e6e7079"];
["504b01021403140000000000000021004643396bf0010000f00100000d00000000000000000000008001083e0000616c5f636f656666732e6e7079"];
["504b010214031400000000000000210030f7bdeff0010000f00100000b0000000000000000000000800137400000616c5f657870732e6e7079"];
["504b0102140314000000000000002100479ce44788000000880000000c0000000000000000000000800164420000616c5f6e756d5f732e6e7079"];
["504b0102140314000000000000002100f287019488000000880000000c000000000000000000000080012a430000616c5f6e756d5f702e6e7079"];
["504b0102140314000000000000002100a69790a8f0010000f00100000d00000000000000000000008001f043000073695f636f656666732e6e7079"];
["504b010214031400000000000000210076912948f0010000f00100000b000000000000000000000080011f46000073695f657870732e6e7079"];
["504b0102140314000000000000002100479ce44788000000880000000c000000000000000000000080014c48000073695f6e756d5f732e6e7079"];
["504b0102140314000000000000002100f287019488000000880000000c000000000000000000000080011249000073695f6e756d5f702e6e7079"];
["504b0102140314000000000000002100d9905955f0010000f00100000c00000000000000000000008001d8490000705f636f656666732e6e7079"];
["504b0102140314000000000000002100c78aa63ff0010000f00100000a00000000000000000000008001064c0000705f657870732e6e7079"];
["504b0102140314000000000000002100479ce44788000000880000000b00000000000000000000008001324e0000705f6e756d5f732e6e7079"];
["504b0102140314000000000000002100f287019488000000880000000b00000000000000000000008001f74e0000705f6e756d5f702e6e7079"];
["504b01021403140000000000000021009e5fc8b9f0010000f00100000c00000000000000000000008001bc4f0000735f636f656666732e6e7079"];
["504b0102140314000000000000002100c739b5eff0010000f00100000a00000000000000000000008001ea510000735f657870732e6e7079"];
["504b0102140314000000000000002100479ce44788000000880000000b0000000000000000000000800116540000735f6e756d5f732e6e7079"];
["504b0102140314000000000000002100f287019488000000880000000b00000000000000000000008001db540000735f6e756d5f702e6e7079"];
["504b01021403140000000000000021006e58ca62f0010000f00100000d00000000000000000000008001a0550000636c5f636f656666732e6e7079"];
["504b01021403140000000000000021004db450a5f0010000f00100000b00000000000000000000008001cf570000636c5f657870732e6e7079"];
["504b0102140314000000000000002100479ce44788000000880000000c00000000000000000000008001fc590000636c5f6e756d5f732e6e7079"];
["504b0102140314000000000000002100f287019488000000880000000c00000000000000000000008001c25a0000636c5f6e756d5f702e6e7079"];
["504b01021403140000000000000021000c5f9700e8010000e80100000d00000000000000000000008001885b000061725f636f656666732e6e7079"];
["504b01021403140000000000000021000a861aa9e8010000e80100000b00000000000000000000008001af5d000061725f657870732e6e7079"];
["504b0102140314000000000000002100d99c4e8b88000000880000000c00000000000000000000008001d45f000061725f6e756d5f732e6e7079"];
["504b0102140314000000000000002100f287019488000000880000000c000000000000000000000080019a60000061725f6e756d5f702e6e7079"];
["504b0102140314000000000000002100633a578400020000000200000c00000000000000000000008001606100006b5f636f656666732e6e7079"];
["504b01021403140000000000000021005b67389500020000000200000a000000000000000000000080019e6300006b5f657870732e6e7079"];
["504b0102140314000000000000002100c0958b8188000000880000000b00000000000000000000008001da6500006b5f6e756d5f732e6e7079"];
["504b0102140314000000000000002100f287019488000000880000000b000000000000000000000080019f6600006b5f6e756d5f702e6e7079"];
["504b01021403140000000000000021009e98af3b00020000000200000d000000000000000000000080016467000063615f636f656666732e6e7079"];
["504b01021403140000000000000021002a4e52b700020000000200000b00000000000000000000008001a369000063615f657870732e6e7079"];
["504b0102140314000000000000002100c0958b8188000000880000000c00000000000000000000008001e06b000063615f6e756d5f732e6e7079"];
["504b0102140314000000000000002100f287019488000000880000000c00000000000000000000008001a66c000063615f6e756d5f702e6e7079"];
["504b0102140314000000000000002100fb9d188510020000100200000d000000000000000000000080016c6d000073635f636f656666732e6e7079"];
["504b010214031400000000000000210027ad5af710020000100200000b00000000000000000000008001bb6f000073635f657870732e6e7079"];
["504b01021403140000000000000021002392040f88000000880000000c000000000000000000000080010872000073635f6e756d5f732e6e7079"];
["504b0102140314000000000000002100eb8ec49e88000000880000000c00000000000000000000008001ce72000073635f6e756d5f702e6e7079"];
["504b0102140314000000000000002100f84463bd10020000100200000d000000000000000000000080019473000074695f636f656666732e6e7079"];
["504b01021403140000000000000021009ffbfa9010020000100200000b00000000000000000000008001e375000074695f657870732e6e7079"];
["504b01021403140000000000000021002392040f88000000880000000c000000000000000000000080013078000074695f6e756d5f732e6e7079"];
["504b0102140314000000000000002100eb8ec49e88000000880000000c00000000000000000000008001f678000074695f6e756d5f702e6e7079"];
["504b0102140314000000000000002100e74156ed10020000100200000c00000000000000000000008001bc790000765f636f656666732e6e7079"];
["504b01021403140000000000000021003d8f13b610020000100200000a000000000000000000000080010a7c0000765f657870732e6e7079"];
["504b01021403140000000000000021002392040f88000000880000000b00000000000000000000008001567e0000765f6e756d5f732e6e7079"];
["504b0102140314000000000000002100eb8ec49e88000000880000000b000000000000000000000080011b7f0000765f6e756d5f702e6e7079"];
["504b0102140314000000000000002100b44a431c10020000100200000d00000000000000000000008001e07f000063725f636f656666732e6e7079"];
["504b010214031400000000000000210023c22e0b10020000100200000b000000000000000000000080012f82000063725f657870732e6e7079"];
["504b01021403140000000000000021002392040f88000000880000000c000000000000000000000080017c84000063725f6e756d5f732e6e7079"];
["504b0102140314000000000000002100eb8ec49e88000000880000000c000000000000000000000080014285000063725f6e756d5f702e6e7079"];
["504b01021403140000000000000021001bec507610020000100200000d00000000000000000000008001088600006d6e5f636f656666732e6e7079"];
["504b0102140314000000000000002100c19c8bc710020000100200000b00000000000000000000008001578800006d6e5f657870732e6e7079"];
["504b01021403140000000000000021002392040f88000000880000000c00000000000000000000008001a48a00006d6e5f6e756d5f732e6e7079"];
["504b0102140314000000000000002100eb8ec49e88000000880000000c000000000000000000000080016a8b00006d6e5f6e756d5f702e6e7079"];
["504b01021403140000000000000021003eaa536c18020000180200000d00000000000000000000008001308c000066655f636f656666732e6e7079"];
["504b0102140314000000000000002100291975af18020000180200000b00000000000000000000008001878e000066655f657870732e6e7079"];
["504b0102140314000000000000002100bd92aec388000000880000000c00000000000000000000008001dc90000066655f6e756d5f732e6e7079"];
["504b0102140314000000000000002100eb8ec49e88000000880000000c00000000000000000000008001a291000066655f6e756d5f702e6e7079"];
["504b01021403140000000000000021008e79080e18020000180200000d0000000000000000000000800168920000636f5f636f656666732e6e7079"];
["504b0102140314000000000000002100e40f03fa18020000180200000b00000000000000000000008001bf940000636f5f657870732e6e7079"];
["504b0102140314000000000000002100bd92aec388000000880000000c0000000000000000000000800114970000636f5f6e756d5f732e6e7079"];
["504b0102140314000000000000002100eb8ec49e88000000880000000c00000000000000000000008001da970000636f5f6e756d5f702e6e7079"];
["504b0102140314000000000000002100cfacb60210020000100200000d00000000000000000000008001a09800006e695f636f656666732e6e7079"];
["504b0102140314000000000000002100dffe1baa10020000100200000b00000000000000000000008001ef9a00006e695f657870732e6e7079"];
["504b01021403140000000000000021002392040f88000000880000000c000000000000000000000080013c9d00006e695f6e756d5f732e6e7079"];
["504b0102140314000000000000002100eb8ec49e88000000880000000c00000000000000000000008001029e00006e695f6e756d5f702e6e7079"];
["504b010214031400000000000000210086fccb9510020000100200000d00000000000000000000008001c89e000063755f636f656666732e6e7079"];
["504b0102140314000000000000002100c732631c10020000100200000b0000000000000000000000800117a1000063755f657870732e6e7079"];
["504b01021403140000000000000021002392040f88000000880000000c0000000000000000000000800164a3000063755f6e756d5f732e6e7079"];
["504b0102140314000000000000002100eb8ec49e88000000880000000c000000000000000000000080012aa4000063755f6e756d5f702e6e7079"];
["504b01021403140000000000000021005a5f008d18020000180200000d00000000000000000000008001f0a400007a6e5f636f656666732e6e7079"];
["504b01021403140000000000000021002034424118020000180200000b0000000000000000000000800147a700007a6e5f657870732e6e7079"];
["504b01021403140000000000000021002392040f88000000880000000c000000000000000000000080019ca900007a6e5f6e756d5f732e6e7079"];
["504b0102140314000000000000002100758e6e5288000000880000000c0000000000000000000000800162aa00007a6e5f6e756d5f702e6e7079"];
["504b0102140314000000000000002100f2461da720020000200200000d0000000000000000000000800128ab000067615f636f656666732e6e7079"];
["504b010214031400000000000000210082670d4720020000200200000b0000000000000000000000800187ad000067615f657870732e6e7079"];
["504b01021403140000000000000021002392040f88000000880000000c00000000000000000000008001e4af000067615f6e756d5f732e6e7079"];
["504b01021403140000000000000021009689e1dc88000000880000000c00000000000000000000008001aab0000067615f6e756d5f702e6e7079"];
["504b0102140314000000000000002100b99341c620020000200200000d0000000000000000000000800170b1000067655f636f656666732e6e7079"];
["504b01021403140000000000000021005971b65b20020000200200000b00000000000000000000008001cfb3000067655f657870732e6e7079"];
["504b01021403140000000000000021002392040f88000000880000000c000000000000000000000080012cb6000067655f6e756d5f732e6e7079"];
["504b01021403140000000000000021009689e1dc88000000880000000c00000000000000000000008001f2b6000067655f6e756d5f702e6e7079"];
["504b0102140314000000000000002100f9d8af1320020000200200000d00000000000000000000008001b8b7000061735f636f656666732e6e7079"];
["504b010214031400000000000000210063684c6220020000200200000b0000000000000000000000800117ba000061735f657870732e6e7079"];
["504b01021403140000000000000021002392040f88000000880000000c0000000000000000000000800174bc000061735f6e756d5f732e6e7079"];
["504b01021403140000000000000021009689e1dc88000000880000000c000000000000000000000080013abd000061735f6e756d5f702e6e7079"];
["504b0102140314000000000000002100bc08b6d818020000180200000d0000000000000000000000800100be000073655f636f656666732e6e7079"];
["504b0102140314000000000000002100456bf80018020000180200000b0000000000000000000000800157c0000073655f657870732e6e7079"];
["504b01021403140000000000000021002392040f88000000880000000c00000000000000000000008001acc2000073655f6e756d5f732e6e7079"];
["504b0102140314000000000000002100758e6e5288000000880000000c0000000000000000000000800172c3000073655f6e756d5f702e6e7079"];
["504b01021403140000000000000021007713ff3b18020000180200000d0000000000000000000000800138c4000062725f636f656666732e6e7079"];
["504b0102140314000000000000002100c92b7e2b18020000180200000b000000000000000000000080018fc6000062725f657870732e6e7079"];
["504b01021403140000000000000021002392040f88000000880000000c00000000000000000000008001e4c8000062725f6e756d5f732e6e7079"];
["504b0102140314000000000000002100758e6e5288000000880000000c00000000000000000000008001aac9000062725f6e756d5f702e6e7079"];
["504b0102140314000000000000002100a8ee640e10020000100200000d0000000000000000000000800170ca00006b725f636f656666732e6e7079"];
["504b0102140314000000000000002100d0347b0a10020000100200000b00000000000000000000008001bfcc00006b725f657870732e6e7079"];
["504b01021403140000000000000021002392040f88000000880000000c000000000000000000000080010ccf00006b725f6e756d5f732e6e7079"];
["504b0102140314000000000000002100eb8ec49e88000000880000000c00000000000000000000008001d2cf00006b725f6e756d5f702e6e7079"];
["504b0102140314000000000000002100ef1e7b8910020000100200000d0000000000000000000000800198d0000072625f636f656666732e6e7079"];
["504b0102140314000000000000002100ba34dd9010020000100200000b00000000000000000000008001e7d2000072625f657870732e6e7079"];
["504b01021403140000000000000021002392040f88000000880000000c0000000000000000000000800134d5000072625f6e756d5f732e6e7079"];
["504b0102140314000000000000002100eb8ec49e88000000880000000c00000000000000000000008001fad5000072625f6e756d5f702e6e7079"];
["504b0102140314000000000000002100d74f745718020000180200000d00000000000000000000008001c0d6000073725f636f656666732e6e7079"];
["504b0102140314000000000000002100ab686eaa18020000180200000b0000000000000000000000800117d9000073725f657870732e6e7079"];
["504b01021403140000000000000021002392040f88000000880000000c000000000000000000000080016cdb000073725f6e756d5f732e6e7079"];
["504b0102140314000000000000002100758e6e5288000000880000000c0000000000000000000000800132dc000073725f6e756d5f702e6e7079"];
["504b0102140314000000000000002100b1218dd420020000200200000c00000000000000000000008001f8dc0000795f636f656666732e6e7079"];
["504b0102140314000000000000002100a78f203820020000200200000a0000000000000000000000800156df0000795f657870732e6e7079"];
["504b01021403140000000000000021002392040f88000000880000000b00000000000000000000008001b2e10000795f6e756d5f732e6e7079"];
["504b01021403140000000000000021009689e1dc88000000880000000b0000000000000000000000800177e20000795f6e756d5f702e6e7079"];
["504b01021403140000000000000021000b5d774720020000200200000d000000000000000000000080013ce300007a725f636f656666732e6e7079"];
["504b01021403140000000000000021009a57409220020000200200000b000000000000000000000080019be500007a725f657870732e6e7079"];
["504b01021403140000000000000021002392040f88000000880000000c00000000000000000000008001f8e700007a725f6e756d5f732e6e7079"];
["504b01021403140000000000000021009689e1dc88000000880000000c00000000000000000000008001bee800007a725f6e756d5f702e6e7079"];
["504b0102140314000000000000002100381c3ee830020000300200000d0000000000000000000000800184e900006e625f636f656666732e6e7079"];
["504b0102140314000000000000002100f159580330020000300200000b00000000000000000000008001f3eb00006e625f657870732e6e7079"];
["504b0102140314000000000000002100bd92aec388000000880000000c0000000000000000000000800160ee00006e625f6e756d5f732e6e7079"];
["504b010214031400000000000000210008894b1088000000880000000c0000000000000000000000800126ef00006e625f6e756d5f702e6e7079"];
["504b0102140314000000000000002100b58a376d28020000280200000d00000000000000000000008001ecef00006d6f5f636f656666732e6e7079"];
["504b01021403140000000000000021003b438a3428020000280200000b0000000000000000000000800153f200006d6f5f657870732e6e7079"];
["504b01021403140000000000000021002392040f88000000880000000c00000000000000000000008001b8f400006d6f5f6e756d5f732e6e7079"];
["504b010214031400000000000000210008894b1088000000880000000c000000000000000000000080017ef500006d6f5f6e756d5f702e6e7079"];
["504b0102140314000000000000002100a481b4ec30020000300200000d0000000000000000000000800144f6000074635f636f656666732e6e7079"];
["504b0102140314000000000000002100e02173b030020000300200000b00000000000000000000008001b3f8000074635f657870732e6e7079"];
["504b01021403140000000000000021006cd3439f88000000880000000c0000000000000000000000800120fb000074635f6e756d5f732e6e7079"];
["504b01021403140000000000000021009689e1dc88000000880000000c00000000000000000000008001e6fb000074635f6e756d5f702e6e7079"];
["504b0102140314000000000000002100d462d23228020000280200000d00000000000000000000008001acfc000072755f636f656666732e6e7079"];
["504b01021403140000000000000021008b748ca428020000280200000b0000000000000000000000800113ff000072755f657870732e6e7079"];
["504b0102140314000000000000002100bd92aec388000000880000000c000000000000000000000080017801010072755f6e756d5f732e6e7079"];
["504b01021403140000000000000021009689e1dc88000000880000000c000000000000000000000080013e02010072755f6e756d5f702e6e7079"];
["504b0102140314000000000000002100de2eaed828020000280200000d000000000000000000000080010403010072685f636f656666732e6e7079"];
["504b01021403140000000000000021007aacee6928020000280200000b000000000000000000000080016b05010072685f657870732e6e7079"];
["504b01021403140000000000000021006cd3439f88000000880000000c00000000000000000000008001d007010072685f6e756d5f732e6e7079"];
["504b0102140314000000000000002100758e6e5288000000880000000c000000000000000000000080019608010072685f6e756d5f702e6e7079"];
["504b01021403140000000000000021003ea198b118020000180200000d000000000000000000000080015c09010070645f636f656666732e6e7079"];
["504b010214031400000000000000210017674c6518020000180200000b00000000000000000000008001b30b010070645f657870732e6e7079"];
["504b0102140314000000000000002100c0958b8188000000880000000c00000000000000000000008001080e010070645f6e756d5f732e6e7079"];
["504b01021403140000000000000021009689e1dc88000000880000000c00000000000000000000008001ce0e010070645f6e756d5f702e6e7079"];
["504b010214031400000000000000210040f2834720020000200200000d00000000000000000000008001940f010061675f636f656666732e6e7079"];
["504b0102140314000000000000002100928fc7c220020000200200000b00000000000000000000008001f311010061675f657870732e6e7079"];
["504b0102140314000000000000002100bd92aec388000000880000000c000000000000000000000080015014010061675f6e756d5f732e6e7079"];
["504b0102140314000000000000002100758e6e5288000000880000000c000000000000000000000080011615010061675f6e756d5f702e6e7079"];
["504b0102140314000000000000002100c20ae3a118020000180200000d00000000000000000000008001dc15010063645f636f656666732e6e7079"];
["504b0102140314000000000000002100cbd0d21018020000180200000b000000000000000000000080013318010063645f657870732e6e7079"];
["504b0102140314000000000000002100bd92aec388000000880000000c00000000000000000000008001881a010063645f6e756d5f732e6e7079"];
["504b0102140314000000000000002100eb8ec49e88000000880000000c000000000000000000000080014e1b010063645f6e756d5f702e6e7079"];
["504b010214031400000000000000210047e927dd20020000200200000d00000000000000000000008001141c0100696e5f636f656666732e6e7079"];
["504b01021403140000000000000021002d93553a20020000200200000b00000000000000000000008001731e0100696e5f657870732e6e7079"];
["504b01021403140000000000000021002392040f88000000880000000c00000000000000000000008001d0200100696e5f6e756d5f732e6e7079"];
["504b01021403140000000000000021009689e1dc88000000880000000c0000000000000000000000800196210100696e5f6e756d5f702e6e7079"];
["504b01021403140000000000000021007595e3a320020000200200000d000000000000000000000080015c220100736e5f636f656666732e6e7079"];
["504b010214031400000000000000210076a1ff0120020000200200000b00000000000000000000008001bb240100736e5f657870732e6e7079"];
["504b01021403140000000000000021002392040f88000000880000000c0000000000000000000000800118270100736e5f6e756d5f732e6e7079"];
["504b01021403140000000000000021009689e1dc88000000880000000c00000000000000000000008001de270100736e5f6e756d5f702e6e7079"];
["504b01021403140000000000000021004058425120020000200200000d00000000000000000000008001a428010073625f636f656666732e6e7079"];
["504b0102140314000000000000002100e90e434b20020000200200000b00000000000000000000008001032b010073625f657870732e6e7079"];
["504b01021403140000000000000021002392040f88000000880000000c00000000000000000000008001602d010073625f6e756d5f732e6e7079"];
["504b01021403140000000000000021009689e1dc88000000880000000c00000000000000000000008001262e010073625f6e756d5f702e6e7079"];
["504b0102140314000000000000002100ffd5e83728020000280200000d00000000000000000000008001ec2e010074655f636f656666732e6e7079"];
["504b0102140314000000000000002100e3da72a528020000280200000b000000000000000000000080015331010074655f657870732e6e7079"];
["504b01021403140000000000000021002392040f88000000880000000c00000000000000000000008001b833010074655f6e756d5f732e6e7079"];
["504b010214031400000000000000210008894b1088000000880000000c000000000000000000000080017e34010074655f6e756d5f702e6e7079"];
["504b0102140314000000000000002100a0e6ab1820020000200200000c0000000000000000000000800144350100695f636f656666732e6e7079"];
["504b010214031400000000000000210081b5591620020000200200000a00000000000000000000008001a2370100695f657870732e6e7079"];
["504b01021403140000000000000021002392040f88000000880000000b00000000000000000000008001fe390100695f6e756d5f732e6e7079"];
["504b01021403140000000000000021009689e1dc88000000880000000b00000000000000000000008001c33a0100695f6e756d5f702e6e7079"];
["504b01021403140000000000000021006e66db9028020000280200000d00000000000000000000008001883b010078655f636f656666732e6e7079"];
["504b01021403140000000000000021009f66eba228020000280200000b00000000000000000000008001ef3d010078655f657870732e6e7079"];
["504b0102140314000000000000002100bd92aec388000000880000000c000000000000000000000080015440010078655f6e756d5f732e6e7079"];
["504b01021403140000000000000021009689e1dc88000000880000000c000000000000000000000080011a41010078655f6e756d5f702e6e7079"]].
Definition fpi_end : list string := ["504b050600000000d800d800c0300000e04101000000"].
Definition fpi_npz : bytes := (List.concat (map hex fpi_files) ++ List.concat (map hex fpi_records) ++ hex fpi_end)%list.

(** bfit/data/kl_slsqp_results.npz: the files, the directory, the last 22 bytes. *)
Definition slsqp_files : list (list string) := [
["504b030414000000000000002100eb8ec49e88000000880000000b001400685f6e756d5f732e6e70790100100088000000000000008800000000000000934e554d5059010076007b276465736372273a"; "20273c6938272c2027666f727472616e5f6f72646572273a2046616c73652c20277368617065273a2028292c207d20202020202020202020202020202020202020202020202020202020202020202020"; "202020202020202020202020202020202020202020202020202020200a1400000000000000"];
["504b0304140000000000000021003ab1356688000000880000000b001400685f6e756d5f702e6e70790100100088000000000000008800000000000000934e554d5059010076007b276465736372273a"; "20273c6938272c2027666f727472616e5f6f72646572273a2046616c73652c20277368617065273a2028292c207d20202020202020202020202020202020202020202020202020202020202020202020"; "202020202020202020202020202020202020202020202020202020200a0000000000000000"];
["504b0304140000000000000021008564832f20010000200100000c001400685f636f656666732e6e70790100100020010000000000002001000000000000934e554d5059010076007b27646573637227"; "3a20273c6638272c2027666f727472616e5f6f72646572273a2046616c73652c20277368617065273a202832302c292c207d202020202020202020202020202020202020202020202020202020202020"; "20202020202020202020202020202020202020202020202020202020200a29fd0310d02a403ea01a45777e66743e11ea2d819997713db0a14a3caf0da33e61f3008c5b7bb13e594e097f0a01ea3e7f42"; "951f27bad73ec8bbda9ab8371d3fcf60c538e184303f28263b370140513f503d52c886de6c3fa3495470e9eb853f1d3590536e339b3f093664b127fab23f52f52e0eba79bc3f48e7541908f8cb3f9919"; "01a474b9d33f8db9e64f1935c93fdbe774b2e2cba73fe817ace592d6623f"];
["504b030414000000000000002100ea8923db20010000200100000a001400685f657870732e6e70790100100020010000000000002001000000000000934e554d5059010076007b276465736372273a20"; "273c6638272c2027666f727472616e5f6f72646572273a2046616c73652c20277368617065273a202832302c292c207d2020202020202020202020202020202020202020202020202020202020202020"; "2020202020202020202020202020202020202020202020202020200a8cffd8d3303ad0408c8540d8de60ad406a01823537169f40fc7f229bc7ad9440352a1bd3eae085403c030fc515287240a9abc855"; "7110664011218d389fa05640b98caeaa205346403caae5def3f23840e1bb4d352cb82940ff9c53d8b9b71b40ff21d19e64e20f40df3abb6111f3014039eebd8be39cf53fee35b7f4508feb3f8711f93f"; "8e94df3f7d1ca16e8719d23f0ddeaeed6261c53f0b91b5b59161b93f"];
["504b030414000000000000002100758e6e5288000000880000000c00140068655f6e756d5f732e6e70790100100088000000000000008800000000000000934e554d5059010076007b27646573637227"; "3a20273c6938272c2027666f727472616e5f6f72646572273a2046616c73652c20277368617065273a2028292c207d202020202020202020202020202020202020202020202020202020202020202020"; "20202020202020202020202020202020202020202020202020202020200a1500000000000000"];
["504b0304140000000000000021003ab1356688000000880000000c00140068655f6e756d5f702e6e70790100100088000000000000008800000000000000934e554d5059010076007b27646573637227"; "3a20273c6938272c2027666f727472616e5f6f72646572273a2046616c73652c20277368617065273a2028292c207d202020202020202020202020202020202020202020202020202020202020202020"; "20202020202020202020202020202020202020202020202020202020200a0000000000000000"];
["504b030414000000000000002100d30e43b728010000280100000d00140068655f636f656666732e6e70790100100028010000000000002801000000000000934e554d5059010076007b276465736372"; "273a20273c6638272c2027666f727472616e5f6f72646572273a2046616c73652c20277368617065273a202832312c292c207d2020202020202020202020202020202020202020202020202020202020"; "2020202020202020202020202020202020202020202020202020202020200a888c7e09599b463e8feaf79dcee77d3e11ea2d819997713dccd5015292fba23eb7679d41faa1d43e087d06849997713d98"; "ee21f9c3db023f28ac9606fd33323f11ea2d819997713d301e0c064c34603fe90f3c9492d3753f5b55e2514c0a8b3fb2cf74376acfa83f78fbe2fa91bcb43f41b51b9f9374cb3f922cb9db815bd13fe5"; "04399559a0db3f52803ab42b44e13f31aaa23ef838d43f4c6d8a2ffab4b23f55c73adecc7e6e3f"];
["504b0304140000000000000021003632b0be28010000280100000b00140068655f657870732e6e70790100100028010000000000002801000000000000934e554d5059010076007b276465736372273a"; "20273c6638272c2027666f727472616e5f6f72646572273a2046616c73652c20277368617065273a202832312c292c207d20202020202020202020202020202020202020202020202020202020202020"; "202020202020202020202020202020202020202020202020202020200ad9b146cbad07f0409c4716d5cdcccc404c6a25698e0cc2402fe7496f7671b740c3bf9ade5c23a1407dbc087117519140ee795b"; "b41aac884012d5e0fba3f671403444b6522a836640614fb5268adb594011e20845e1fe46404852e57a5afe3c40f80937f196a32d402796d50bf39721401d46683f04981440dab1b1679c6d084062209e"; "c88186ff3fe6dae92756d8f13fed53dd681ddbe33f2454456410b7d63f2db57024891fca3f"];
["504b0304140000000000000021003a9bc10588000000880000000c0014006c695f6e756d5f732e6e70790100100088000000000000008800000000000000934e554d5059010076007b27646573637227"; "3a20273c6938272c2027666f727472616e5f6f72646572273a2046616c73652c20277368617065273a2028292c207d202020202020202020202020202020202020202020202020202020202020202020"; "20202020202020202020202020202020202020202020202020202020200a1900000000000000"];
["504b0304140000000000000021003ab1356688000000880000000c0014006c695f6e756d5f702e6e70790100100088000000000000008800000000000000934e554d5059010076007b27646573637227"; "3a20273c6938272c2027666f727472616e5f6f72646572273a2046616c73652c20277368617065273a2028292c207d202020202020202020202020202020202020202020202020202020202020202020"; "20202020202020202020202020202020202020202020202020202020200a0000000000000000"];
["504b03041400000000000000210083ed068f48010000480100000d0014006c695f636f656666732e6e70790100100048010000000000004801000000000000934e554d5059010076007b276465736372"; "273a20273c6638272c2027666f727472616e5f6f72646572273a2046616c73652c20277368617065273a202832352c292c207d2020202020202020202020202020202020202020202020202020202020"; "2020202020202020202020202020202020202020202020202020202020200ae1be86e0c1eb493e8803429c9997713d11ea2d819997713d5ac9610e31ee983eb82907d327c3bb3e11ea2d819997713d85"; "7076c69997713d34c81b3a385b183fa48087fbaa55433f53fc16e39a97713de420aa482e556c3f4f5df1dd8c8b733fc1f1e2614a52973fba70ad1db0ceb03f11ea2d819997713dd285631b1ef1d23fae"; "d5f9aeac51d13fddf4b301084ddf3f997887d92b81dc3f38591984deb4d43f1bd316a79c73803f9bd58690759fd33f7bbc2228f414de3f3e6496f82a50d23f08a86c8f2ac67d3f"];
["504b030414000000000000002100eb2247aa48010000480100000b0014006c695f657870732e6e70790100100048010000000000004801000000000000934e554d5059010076007b276465736372273a"; "20273c6638272c2027666f727472616e5f6f72646572273a2046616c73652c20277368617065273a202832352c292c207d20202020202020202020202020202020202020202020202020202020202020"; "202020202020202020202020202020202020202020202020202020200a35fc76bb60f008417e0c7f8e6a77de40bddefb53c111d2406f563485d720ce40347bf0ac6e28c6405a27786bc8b2a64032aace"; "1ab90aa04039932db5b2789840c8c2215facbe7a40f00553177953774077e28ae89c266740fa3e241ba57d56404d224602a8c94c40a3b52968e5583e403064c789d8a730402ad576b700d02b4030642c"; "1b33a016402771c6ccd1a11640304b37b2bb690240a8d6a2d7c66902407918177eed6902402b384b966254bd3ff47698f55a54bd3f8c6aa9438cd3ad3fa9900c44ecb79f3f"];
["504b0304140000000000000021003a9bc10588000000880000000c00140062655f6e756d5f732e6e70790100100088000000000000008800000000000000934e554d5059010076007b27646573637227"; "3a20273c6938272c2027666f727472616e5f6f72646572273a2046616c73652c20277368617065273a2028292c207d202020202020202020202020202020202020202020202020202020202020202020"; "20202020202020202020202020202020202020202020202020202020200a1900000000000000"];
["504b0304140000000000000021003ab1356688000000880000000c00140062655f6e756d5f702e6e70790100100088000000000000008800000000000000934e554d5059010076007b27646573637227"; "3a20273c6938272c2027666f727472616e5f6f72646572273a2046616c73652c20277368617065273a2028292c207d202020202020202020202020202020202020202020202020202020202020202020"; "20202020202020202020202020202020202020202020202020202020200a0000000000000000"];
["504b03041400000000000000210049dd9c8248010000480100000d00140062655f636f656666732e6e70790100100048010000000000004801000000000000934e554d5059010076007b276465736372"; "273a20273c6638272c2027666f727472616e5f6f72646572273a2046616c73652c20277368617065273a202832352c292c207d2020202020202020202020202020202020202020202020202020202020"; "2020202020202020202020202020202020202020202020202020202020200acbb6ceda3fbe553e11ea2d819997713d0d63ca1a29b2993eab6b06ba5810b83eca1de01f9a97713d11ea2d819997713d78"; "c7e1f17940133f62452bbfa297713d507276817cc6503f688e8d4030f8673f17be2e09dc586b3f38c93fc5209e973f35d06577009aac3fdac02b7afc0dc03f2ce64db9e500d03fe580994b115fda3f5c"; "8698326325d83f8f5859966b60d83f247f198f26bdce3ff12536f4641fbd3f326fcc65ae13d83f09d15f6ca9fee13f025481eec184d73ff7a4aec0c55de53ff2160c1f29aea43f"];
["504b0304140000000000000021006953374a48010000480100000b00140062655f657870732e6e70790100100048010000000000004801000000000000934e554d5059010076007b276465736372273a"; "20273c6638272c2027666f727472616e5f6f72646572273a2046616c73652c20277368617065273a202832352c292c207d20202020202020202020202020202020202020202020202020202020202020"; "202020202020202020202020202020202020202020202020202020200ad19636a12e7e0141fe493facf83ae7401a1af45d0031e3403f775285b810d24098f537667aa4b640e3bec0c145a9b2404d2169"; "768992a940c57219a7472a87407d8a610529718640b98db077040473409beb7b4ecf0c6440da5944c44b3b5e406d7ed1e6e9d047409b12dad351bb434034e4b37dc7db2d4042906cfacaf42d406c9630"; "29e46c1640a8c25bf0d46e1640285e9681206c16404a4ed93d4fe4d03f64efb87054e4d03f0aac746e52e4d03f44d337d64ee4d03fb36f6820ae0ac03f4e6efac22de5b03f"];
["504b0304140000000000000021003a9bc10588000000880000000b001400625f6e756d5f732e6e70790100100088000000000000008800000000000000934e554d5059010076007b276465736372273a"; "20273c6938272c2027666f727472616e5f6f72646572273a2046616c73652c20277368617065273a2028292c207d20202020202020202020202020202020202020202020202020202020202020202020"; "202020202020202020202020202020202020202020202020202020200a1900000000000000"];
["504b03041400000000000000210096a315bf88000000880000000b001400625f6e756d5f702e6e70790100100088000000000000008800000000000000934e554d5059010076007b276465736372273a"; "20273c6938272c2027666f727472616e5f6f72646572273a2046616c73652c20277368617065273a2028292c207d20202020202020202020202020202020202020202020202020202020202020202020"; "202020202020202020202020202020202020202020202020202020200a0f00000000000000"];
["504b0304140000000000000021006a81ff0ec0010000c00100000c001400625f636f656666732e6e707901001000c001000000000000c001000000000000934e554d5059010076007b27646573637227"; "3a20273c6638272c2027666f727472616e5f6f72646572273a2046616c73652c20277368617065273a202834302c292c207d202020202020202020202020202020202020202020202020202020202020"; "20202020202020202020202020202020202020202020202020202020200a6f2ebf6ba313af3e71f166819997713d8e16ad819997713dc4a5ed829997713d11ea2d819997713d8be7616ac96f143ff940"; "d3578c5c773f5577cab09997713df9993efb9997713d11ea2d819997713d3f8657d7a397713dcbb18ed09997713dd5a0e753714eb63f7588e068de48a13fc6301dffa227bc3f3721805d5bf1c73f7785"; "1379a911c13f84a61951da5ada3fb68a6d1a3240b73f97ad5b3544e3963f478dbe59931dce3fc81aa7921aecd63fdb35c8cfe62ed83f25b1b34b2f2fd43fd3957221b972b03feeffdda3614e783fa3b4"; "17b0f16a813f5d232975d607903f327ae9f53192b73f36c3372e6197c23f4976e80d89aac83f2c1d8346191fc93ff26ada17e5f9b93f862065eb5e44bc3f5715c8e0bdf0ce3f22726b2cf337df3f91c4"; "bf060f22e03fcbbb1a3642acd43f8da89dea8f18c23f1bfb73f10281473f"];
["504b0304140000000000000021008c75918fc0010000c00100000a001400625f657870732e6e707901001000c001000000000000c001000000000000934e554d5059010076007b276465736372273a20"; "273c6638272c2027666f727472616e5f6f72646572273a2046616c73652c20277368617065273a202834302c292c207d2020202020202020202020202020202020202020202020202020202020202020"; "2020202020202020202020202020202020202020202020202020200ab206c9430b99e7408497efc7e07de740d050988554ceb5404e2c4a1632a9b54080cdc97cfda0b540b8654e214498b540ec40ff0d"; "81ae8940e7e0f516edb388404d987021c7898840dbca341ec75c8840769169f72d288640634cc8786e736e408ef63320640460403110de9685815140915cadf9980844404461b7afc7c437401de1730c"; "ccb22d40130de2c9367623401c75963ca7a41b40903dc7759a77f33f53a09abc7081e43fc5951cccbd3dde3f737f6c369411d53fd4aeccbadb7acd3fd18a1820ceeeb73fcc535622c3408140461a35db"; "1c247440905a86cd6a396440382c3984999456409b691123fa634940e208f4d692473d40a08dfe608ba531408436c8a656e324408ae6a4f4688c1b407346146a8234f83fa887f53f1a18ec3f3e49f454"; "18fadf3f2529025102afd23fdbed31c8fcbbc63ffcca70a08fb8af3f"];
["504b03041400000000000000210008894b1088000000880000000b001400635f6e756d5f732e6e70790100100088000000000000008800000000000000934e554d5059010076007b276465736372273a"; "20273c6938272c2027666f727472616e5f6f72646572273a2046616c73652c20277368617065273a2028292c207d20202020202020202020202020202020202020202020202020202020202020202020"; "202020202020202020202020202020202020202020202020202020200a1700000000000000"];
["504b03041400000000000000210096a315bf88000000880000000b001400635f6e756d5f702e6e70790100100088000000000000008800000000000000934e554d5059010076007b276465736372273a"; "20273c6938272c2027666f727472616e5f6f72646572273a2046616c73652c20277368617065273a2028292c207d20202020202020202020202020202020202020202020202020202020202020202020"; "202020202020202020202020202020202020202020202020202020200a0f00000000000000"];
["504b030414000000000000002100f3816dfdb0010000b00100000c001400635f636f656666732e6e707901001000b001000000000000b001000000000000934e554d5059010076007b27646573637227"; "3a20273c6638272c2027666f727472616e5f6f72646572273a2046616c73652c20277368617065273a202833382c292c207d202020202020202020202020202020202020202020202020202020202020"; "20202020202020202020202020202020202020202020202020202020200a2e1f3e5570eca33eb68beb869997713d11ea2d819997713d11ea2d819997713de43626d931c7153f3551e26e6d1e763f11ea"; "2d819997713dd3be924a9a97713d11ea2d819997713ddb893bffab3c9b3ff670958d9997713d127414ea9f97713d6358b7af851c973f6f7aaad95b09c13f7aa2a3b357a4c33f2b9b919e634dd63fb655"; "829de7daa13f095483de5ae6b23f9539079907b3cc3fd33e4e9ad478d93f35df8399fc26df3f1e13c9ee2064dc3f60b1c3ae9bcbd93f2006a3e9b48a903fea31a6420f28ae3f38e71eac3983bb3fc7e7"; "fe9983d4c43f2323c248a804ca3f81c82dde3327cd3f14138100016bca3f7f56736eb4b6c83fa9fc6f3c2e6ccd3f9242e722b9dbd73f2ea364e10941e33f6b1da5634107e13f65f922b7c12cd43fb8db"; "f7631c55923f2884eae608bf443f"];
["504b030414000000000000002100c91ae4dcb0010000b00100000a001400635f657870732e6e707901001000b001000000000000b001000000000000934e554d5059010076007b276465736372273a20"; "273c6638272c2027666f727472616e5f6f72646572273a2046616c73652c20277368617065273a202833382c292c207d2020202020202020202020202020202020202020202020202020202020202020"; "2020202020202020202020202020202020202020202020202020200a9a9c409744f3f1401a8de9eb165ec0409584d89cce22c0404a9111138d1cc0409c55470e3b16c040119d312994ed9040d8def051"; "82a59040df3afd5c638290405bb41d9ac1329040d594ef6d39b88040f72f6e58ed947040fe3c796f60886040bfac4760e79d52402e66f3ff62934540f6aeddc2b5603a40c664b5fc291c3140fe53c204"; "252b26409c40e08229e60a40ff9ef6553391f33f276b2475c241e93fbba0a78875d2e13f9c3ee388e392d93fc50359d92fe8c93f6fb3864cf3d38140f702c5ea97857340193aefd5543e65404e92ed4e"; "19b1574094e437b793114b40361595770801404087c6243a5717334096b66d605c6f27409d9b81556eea034057b6a4ab50f0fa3f7a4cefd81a46f13fd2f9d86cdbb6e43f08aa4d6561aed83f0b6e6d55"; "4cf8c13f609d28fd90fcb53f"];
["504b03041400000000000000210008894b1088000000880000000b0014006e5f6e756d5f732e6e70790100100088000000000000008800000000000000934e554d5059010076007b276465736372273a"; "20273c6938272c2027666f727472616e5f6f72646572273a2046616c73652c20277368617065273a2028292c207d20202020202020202020202020202020202020202020202020202020202020202020"; "202020202020202020202020202020202020202020202020202020200a1700000000000000"];
["504b03041400000000000000210011808e1a88000000880000000b0014006e5f6e756d5f702e6e70790100100088000000000000008800000000000000934e554d5059010076007b276465736372273a"; "20273c6938272c2027666f727472616e5f6f72646572273a2046616c73652c20277368617065273a2028292c207d20202020202020202020202020202020202020202020202020202020202020202020"; "202020202020202020202020202020202020202020202020202020200a1000000000000000"];
["504b0304140000000000000021008a82fdc8b8010000b80100000c0014006e5f636f656666732e6e707901001000b801000000000000b801000000000000934e554d5059010076007b27646573637227"; "3a20273c6638272c2027666f727472616e5f6f72646572273a2046616c73652c20277368617065273a202833392c292c207d202020202020202020202020202020202020202020202020202020202020"; "20202020202020202020202020202020202020202020202020202020200a6cb7d1859997713d4eaed4859997713d296af72f0f03d63ed7eaedd04d5c3d3fa51fbbaa9997713d84aae99a9997713d0b05"; "b2e79997713d0f22a203e2e8493fc232093cf39f563fc351efbc31c49b3f802b798b2ab5b53ff44d9d179f388b3f031c507b0664c23f96814ce6a590c53f9594c382acf2c23fe45836db905ed63f346a"; "0e534f97c93f6c4606d69fc9c83f2d939253fdfadb3f17a38a923d1ae33f3311ce9c902ae33f1dba8243cf86df3f592dfcacff37b93ff84745b4d4ca453f6cc453b79997713d66adeaf39997713de486"; "cc671e6f953ff5840ec91c09ba3f99d0955cb8c4c23fe5e903a701cbca3fcb030c573be5ca3f5ab26c3b88cbba3fcf831de98d57b93fbc1eb3701112d93f5f9db57b54f8e73f3bb7131dde1fe73ff778"; "f5589423df3fe122c85056acc93fbd6555004a08523f"];
["504b03041400000000000000210011c8f454b8010000b80100000a0014006e5f657870732e6e707901001000b801000000000000b801000000000000934e554d5059010076007b276465736372273a20"; "273c6638272c2027666f727472616e5f6f72646572273a2046616c73652c20277368617065273a202833392c292c207d2020202020202020202020202020202020202020202020202020202020202020"; "2020202020202020202020202020202020202020202020202020200a31072f1b70d8ec40a9e05f30d6e6eb40aa74ef899c73eb40f06df71cbb32b2406919fbc88412b24074c817483defb140d68fd2e6"; "99cab040e5c7318595d09b40d8217c0b60f38c40eb0344d048f47c406b54126724826e407a238741b50d614004f9911954985340d8101186fb584740794d68602b323d40c18e444cc6c832406a42f834"; "35e424404034192d976903408360e3e52f7ef63fa29ace5652d3ed3fb69696100affe53f7eb32fdca700dc3fb3ea6c47089ec73f198fc697b2e3a0402d5baafa37d7894030f1cbc52a45844013199753"; "08977340ab4d733656426640228ba7d5a3ec58402d11a6433bc94c40833ad5788d4741404e177b04e8903340c95fff0fd84a1340cc2a966a8664084070117de33aeefc3f1a0b89c3439df03fd1b71ec4"; "8836e33fdc52ef152c80d63fa9dcd8bef205bf3f"];
["504b03041400000000000000210008894b1088000000880000000b0014006f5f6e756d5f732e6e70790100100088000000000000008800000000000000934e554d5059010076007b276465736372273a"; "20273c6938272c2027666f727472616e5f6f72646572273a2046616c73652c20277368617065273a2028292c207d20202020202020202020202020202020202020202020202020202020202020202020"; "202020202020202020202020202020202020202020202020202020200a1700000000000000"];
["504b03041400000000000000210011808e1a88000000880000000b0014006f5f6e756d5f702e6e70790100100088000000000000008800000000000000934e554d5059010076007b276465736372273a"; "20273c6938272c2027666f727472616e5f6f72646572273a2046616c73652c20277368617065273a2028292c207d20202020202020202020202020202020202020202020202020202020202020202020"; "202020202020202020202020202020202020202020202020202020200a1000000000000000"];
["504b030414000000000000002100d2803f05b8010000b80100000c0014006f5f636f656666732e6e707901001000b801000000000000b801000000000000934e554d5059010076007b27646573637227"; "3a20273c6638272c2027666f727472616e5f6f72646572273a2046616c73652c20277368617065273a202833392c292c207d202020202020202020202020202020202020202020202020202020202020"; "20202020202020202020202020202020202020202020202020202020200a43805f819997713d11ea2d819997713d11ea2d819997713d1d9b4f753958d63e18d982db81a4353ff3498cc19c97713df9e1"; "58af9a97713d8631e5b49997713d8a2d6a58e057583f1b39af20b948733faeb028988840ac3f6aca8f245906b13f646f89c917c7b13fbf8e74e0aaa1c13fbeef51ccd0bbc73f4a7724588500c83fd2bc"; "98b76363d03fd3d11f24450bc83f3411bc8c479cd63f68ef793c8620e33fd9dd2ced9401e73f33ec8478d13be53fa7bcd7c96152e33f53c84b3c56943d3f11ea2d819997713d11ea2d819997713de29a"; "bbf386c8a73faaa727fc8cf8be3fbfc54f410944c83f710563457cc2cd3f58456e2f2549cb3fdaa8c72d0837bd3fa4e0853913d0d03ffe6eeb3416dee23f7addd7010aaeeb3f7bc772d04148e83f8ec1"; "24352df2de3fb2134a1a9784a03fe195703c18f5543f"];
["504b030414000000000000002100b0da235cb8010000b80100000a0014006f5f657870732e6e707901001000b801000000000000b801000000000000934e554d5059010076007b276465736372273a20"; "273c6638272c2027666f727472616e5f6f72646572273a2046616c73652c20277368617065273a202833392c292c207d2020202020202020202020202020202020202020202020202020202020202020"; "2020202020202020202020202020202020202020202020202020200aa615cd7c44e02641b9a2d7069c89f2405dd69fe47dfcf140bd577ea3b4f1f04064dbea242c39ba400c1eb7a81ad0b940e5d720d0"; "0336b940fcd0e4dd7f5eae40ac287c6bcad4a040c84b420a3dd48a407627460536257d40ff163bbff1306f40c49741eb03dd6140faf966319fc2544014c586f5395b49409e572990c4cd3f406de9158d"; "f26a35406bb261b9bbbb1640cb23ee18b4af0440e7adceeded91f93fde757ef40753f13fba2166c6131ae83f02298d4ca123d63fa26e91b9d794a5405727d7b640c09040177128e62417854059eabd8b"; "63c374403feb6d90231167405ad6bb9ce4275a408af145fc1cac4e4020bffcdbf62542405a48295a30f43340c76792aebbab1440c0f72c45ebc60a403b4f93ac825300407f88df28aa0bf33fdc68817b"; "781ce63fde7e9b6ed413ce3fa839333208d7c13f"];
["504b030414000000000000002100a49b6bc988000000880000000b001400665f6e756d5f732e6e70790100100088000000000000008800000000000000934e554d5059010076007b276465736372273a"; "20273c6938272c2027666f727472616e5f6f72646572273a2046616c73652c20277368617065273a2028292c207d20202020202020202020202020202020202020202020202020202020202020202020"; "202020202020202020202020202020202020202020202020202020200a1800000000000000"];
["504b03041400000000000000210011808e1a88000000880000000b001400665f6e756d5f702e6e70790100100088000000000000008800000000000000934e554d5059010076007b276465736372273a"; "20273c6938272c2027666f727472616e5f6f72646572273a2046616c73652c20277368617065273a2028292c207d20202020202020202020202020202020202020202020202020202020202020202020"; "202020202020202020202020202020202020202020202020202020200a1000000000000000"];
["504b03041400000000000000210040aa4145c0010000c00100000c001400665f636f656666732e6e707901001000c001000000000000c001000000000000934e554d5059010076007b27646573637227"; "3a20273c6638272c2027666f727472616e5f6f72646572273a2046616c73652c20277368617065273a202834302c292c207d202020202020202020202020202020202020202020202020202020202020"; "20202020202020202020202020202020202020202020202020202020200a11ea2d819997713d9b75bc02f9d5c93e51978be13981293ffd798ea29997713d11ea2d819997713d11ea2d819997713d0d57"; "268c9997713d11ea2d819997713de76eb658735a493f7e9d374fd19b493f394643bf82e2a03f9a974e983df5a33f0fe9f203a1ac9f3fff80056a3109bd3f44acef52f1c1c53f9338ed439a2cbe3f8252"; "fb9f0a6ad73fc57c73b9519fce3faa4f5f0ade79d43f88b5d1596f4de03fde06c61ed329e73fcdc48e931656e93fd3cc32d6bcf0e53f622052e44a6fe23ff49fce02fdb62f3f11ea2d819997713d5fdd"; "647460b69e3f488bb246dd7ab53f80affb7332d7c13fc1ce0e66013bca3fdfa8a60634e1cd3f72c85e5dd45abe3f7f6b8233d9a0b83f3ce346664890dc3f63caeba5c8ece93fd38bc662e67eec3f60e2"; "bdb6b1c8e73fdc3c6453b918dd3fa6883e92e0639e3f722ed595f125523f"];
["504b0304140000000000000021005df59d58c0010000c00100000a001400665f657870732e6e707901001000c001000000000000c001000000000000934e554d5059010076007b276465736372273a20"; "273c6638272c2027666f727472616e5f6f72646572273a2046616c73652c20277368617065273a202834302c292c207d2020202020202020202020202020202020202020202020202020202020202020"; "2020202020202020202020202020202020202020202020202020200ab7bbfb4b068cff408fa032634cfafe404526b24bd5a2c440f1c6fceb9e9cc440bea69c7c6698c440596221390386c4405bc6ac30"; "70aec14013ffabe8e820ad407a6b57d2bda6a940d11cc6ae0489a54097eb98dc06198b40cbcb55ab4b457e409053a4096a2c70406d33c94ed79b6240b94e92385cdf5540253eefffdd0d4b40f1922cdb"; "befa404032a3c574e39432401fa39db2d51c13401d831918db1206406219124a3fedfc3f6c263d413a7ef33f8262bca8ff15eb3fbbca62d87c8fd93f2cb622e9e346aa40823bbe130a399340b38d9e83"; "98e18240ba1e822ca36575407ce482e570b76740809be9d9fa2e5b40ffcd4439c41e5040d2479d4a8abf41407f08bd8ad1212540db8bea6990e617404a335761c1fa0c4023a5c957fb0e02409797ff3a"; "61ddf53f404e5d84fd71e93f74811592045cd13f6ae07a55f58ec43f"];
["504b03041400000000000000210008894b1088000000880000000c0014006e655f6e756d5f732e6e70790100100088000000000000008800000000000000934e554d5059010076007b27646573637227"; "3a20273c6938272c2027666f727472616e5f6f72646572273a2046616c73652c20277368617065273a2028292c207d202020202020202020202020202020202020202020202020202020202020202020"; "20202020202020202020202020202020202020202020202020202020200a1700000000000000"];
["504b03041400000000000000210011808e1a88000000880000000c0014006e655f6e756d5f702e6e70790100100088000000000000008800000000000000934e554d5059010076007b27646573637227"; "3a20273c6938272c2027666f727472616e5f6f72646572273a2046616c73652c20277368617065273a2028292c207d202020202020202020202020202020202020202020202020202020202020202020"; "20202020202020202020202020202020202020202020202020202020200a1000000000000000"];
["504b0304140000000000000021009db365c0b8010000b80100000d0014006e655f636f656666732e6e707901001000b801000000000000b801000000000000934e554d5059010076007b276465736372"; "273a20273c6638272c2027666f727472616e5f6f72646572273a2046616c73652c20277368617065273a202833392c292c207d2020202020202020202020202020202020202020202020202020202020"; "2020202020202020202020202020202020202020202020202020202020200a11ea2d819997713d11ea2d819997713d976739ba9997713d9b4a08f5897a133fb5ad2823d1fb803f86f483bf9997713d12"; "f91586ad97713d11ea2d819997713d11ea2d819997713dd1e80f3da497713d1978f1b89b54b73f598e0089fc6ab23f2bb2efdc4facc03fcee2e973e952c53f6f179cad8a6ecc3f1be487c06a00ca3fd2"; "8dc8d9d155cb3f84d50fe2e430d93f03a90ff57db8e43f7309e2376a76eb3f14986804793ceb3f5c647b16f440e53fb915984e428cde3f0c2bd662c802813ff702ebcd14df763f341ed53975608f3f2d"; "3c08d25201b63fd2207d633af4c53fb00725600389cc3f07131db9294dd03f8baf976f9864c73fb555296243c9d13f753cbcbbb7a2e53f220324d9408eed3fb15b6cd82840f03f074cf7cff7c4e73fcc"; "5869dd3e42d93f81db085bc5db963fa6470f2d2004493f"];
["504b03041400000000000000210070609167b8010000b80100000b0014006e655f657870732e6e707901001000b801000000000000b801000000000000934e554d5059010076007b276465736372273a"; "20273c6638272c2027666f727472616e5f6f72646572273a2046616c73652c20277368617065273a202833392c292c207d20202020202020202020202020202020202020202020202020202020202020"; "202020202020202020202020202020202020202020202020202020200abd294b5bb416dc4051d064fec801dc403d9e6f117f00dc40fd36ca1a11ffdb40b3c67117a8e4a440e3d5b9e403dfa440957906"; "74fadca44044529ab66fdaa4401bd42953039da4408f81901cd6918e40225c583c7a9a7e40f1818ba6e8f07040f44d5e07176663401b33768df94d5740a3acee9443e44c40fd082ebc72a34240d8f8cf"; "37bbd42840021025953fdf1340f8100141033a08408d854b842ee2ff3f98ef5dee986ff53f8402e6162d56ed3f1f77b0fd904bdc3fcb1847712f4e9940dfa03c9cadfc93409337f08ef90d8340bd210a"; "c14807764029357b06de876840af6407f026905c40d5e6bbe879cd5040b17e71b41158424006b60fb280292440063de47392fd1840dab67cce94be0f40a946631558d30340e288365d7882f73f081e5f"; "7f2379eb3f34091e3b8972d33f28633f3b443ac73f"];
["504b030414000000000000002100479ce44788000000880000000c0014006e615f6e756d5f732e6e70790100100088000000000000008800000000000000934e554d5059010076007b27646573637227"; "3a20273c6938272c2027666f727472616e5f6f72646572273a2046616c73652c20277368617065273a2028292c207d202020202020202020202020202020202020202020202020202020202020202020"; "20202020202020202020202020202020202020202020202020202020200a1b00000000000000"];
["504b03041400000000000000210011808e1a88000000880000000c0014006e615f6e756d5f702e6e70790100100088000000000000008800000000000000934e554d5059010076007b27646573637227"; "3a20273c6938272c2027666f727472616e5f6f72646572273a2046616c73652c20277368617065273a2028292c207d202020202020202020202020202020202020202020202020202020202020202020"; "20202020202020202020202020202020202020202020202020202020200a1000000000000000"];
["504b03041400000000000000210016d7a268d8010000d80100000d0014006e615f636f656666732e6e707901001000d801000000000000d801000000000000934e554d5059010076007b276465736372"; "273a20273c6638272c2027666f727472616e5f6f72646572273a2046616c73652c20277368617065273a202834332c292c207d2020202020202020202020202020202020202020202020202020202020"; "2020202020202020202020202020202020202020202020202020202020200a11ea2d819997713d11ea2d819997713d11ea2d819997713d11f6955847afd03e43637e6a7ea2373f11ea2d819997713d11"; "ea2d819997713d11ea2d819997713df49ea0eb033b563fef7bffd641e3783f40b39d41a840a73f7024ed7d85b09e3f298df2ecf62cbb3f9734257c0849d63f0a782b1eba75993f273e05cf5822df3fb8"; "17b5e360fdd93fd57bfcc98f63dc3f955cd3a81f1be23f593bfed90e42e93fc776d3541455ec3fae8552d33d5ee93f0af61e8f0e38e13fdfcb0364cc63c13f2ea7ee9dbea9e33f014c1a243349cb3fc4"; "12ea37c9df893f0faf97fc026c403f11ea2d819997713d11ea2d819997713d5fd15d97fadf9f3f31fb44e243cca73feb6fd080c27fb43f5d24d5e386f7c93f9836c8abe955853f85f3f177b38aac3f9b"; "a50de4e405d43f356bec8ed90cec3f413ca8aac258ef3f45b6507c20abeb3f7fce61a59ab9e43f8326eec8b438d33ff6c308f0df92c23f"];
["504b030414000000000000002100f7e269f5d8010000d80100000b0014006e615f657870732e6e707901001000d801000000000000d801000000000000934e554d5059010076007b276465736372273a"; "20273c6638272c2027666f727472616e5f6f72646572273a2046616c73652c20277368617065273a202834332c292c207d20202020202020202020202020202020202020202020202020202020202020"; "202020202020202020202020202020202020202020202020202020200a77785adf1e4d42410c1eb76080b10541c0c11476cba80541ed6808f3097405419d6f6e3c3290c840cb3b25868a87c8407db37e"; "27aa78c8409e44df25f715bd401da27272c444b04087b432b0fd229940da8c22b59e918b402c2a99de09f97d401ccb0ac55d627140c7425c9b8e126440f781141e9ba85840e9f9eb21826e4d4092c178"; "f261d3434069c737b195ea224077968f8987c114406f18970323d40a4064a45184fb4902403de33afeef81f93f9a3afc10ccbcf13fe7af9f924436c93fc0827e0d566cb53f0268048aefb9a93f5cceb5"; "15f9859f3f5a7d2672b270b4408f5ea26dfaf59d40debe490a8a6d96407d6954df913c844071718eab4da47640cf727c69ca336940326fddb0e8ca5d4071477a5cb8655040dc59ddbfb45b3c4017c2db"; "cd3d662640f714adc9305c1b401d6f58cd3746114073be14a889df0640e1c95ae2d1a0fc3fb013956f564bf03f9e04aa7a0040c63f"];
["504b030414000000000000002100479ce44788000000880000000c0014006d675f6e756d5f732e6e70790100100088000000000000008800000000000000934e554d5059010076007b27646573637227"; "3a20273c6938272c2027666f727472616e5f6f72646572273a2046616c73652c20277368617065273a2028292c207d202020202020202020202020202020202020202020202020202020202020202020"; "20202020202020202020202020202020202020202020202020202020200a1b00000000000000"];
["504b03041400000000000000210011808e1a88000000880000000c0014006d675f6e756d5f702e6e70790100100088000000000000008800000000000000934e554d5059010076007b27646573637227"; "3a20273c6938272c2027666f727472616e5f6f72646572273a2046616c73652c20277368617065273a2028292c207d202020202020202020202020202020202020202020202020202020202020202020"; "20202020202020202020202020202020202020202020202020202020200a1000000000000000"];
["504b030414000000000000002100686f5935d8010000d80100000d0014006d675f636f656666732e6e707901001000d801000000000000d801000000000000934e554d5059010076007b276465736372"; "273a20273c6638272c2027666f727472616e5f6f72646572273a2046616c73652c20277368617065273a202834332c292c207d2020202020202020202020202020202020202020202020202020202020"; "2020202020202020202020202020202020202020202020202020202020200a11ea2d819997713d31bead48b350c93e0deebd160ec5343f11ea2d819997713d11ea2d819997713d5af748839997713d11"; "ea2d819997713d11ea2d819997713d63b6f8cb4843553f366a652cf3469e3f30e0681fc6c4933fc1aa49b0d9b0b83fda886359c1935b3fdc7a2ecb98abd13fbcf5713a2b23b03f4e608a695532da3fdb"; "a4a2171e2cd13fdf66527e82ebd83f223dc22f4665e43fa2ac88a0a165eb3fc5a2450ac010ed3f597ac46a35c9e53f3eca169446a9cf3f2fac897e2918d83f706890667ffdeb3f2eddccfa319acb3f63"; "33287ecc8a853f437c7066e110403f11ea2d819997713dcbbbfa13b933993f79a423061119b03f6120599df89fc33f2d2229ea4aa6c53f1049ec3b40afcf3f81976b335851c03f7d56da3d881ec73fa4"; "4861568e00e53f69821a68905dee3f1a53368ca90af03fa6185cea4592ec3f5f592007f04ed93f5106e8e79e46d53fe8a1e1048e5edc3f"];
["504b030414000000000000002100001762e2d8010000d80100000b0014006d675f657870732e6e707901001000d801000000000000d801000000000000934e554d5059010076007b276465736372273a"; "20273c6638272c2027666f727472616e5f6f72646572273a2046616c73652c20277368617065273a202834332c292c207d20202020202020202020202020202020202020202020202020202020202020"; "202020202020202020202020202020202020202020202020202020200a7c95e2eebf6f0e4180812841e1360e415da8553a37e9cf40aa38ec273b02cf40af33e85a26e6ce40afc837d1d7c9ce404676ec"; "e33cb3cd407b0f7db534c4b64030bac014d641b440f955da9a911c9a406aa286bc8ae48c40ea3e9d0bdccc7e400998cbfc55e9714050d65393f0ee6440853cd376f0e0594083eac53f51dd4f40d8ae7b"; "40424a3f402cba0d30bcc022406796ad2fc3271640e9fdb0532f7f0d40fdb9bf3309bf04401070437130f0fd3f1f9bf3799cb8f63fd5f9d0f4d8b9d63f767e831c2327bd3f242aa97ecee4b13f7b7fd6"; "c99647a63fe409ad8205d8b940cb6a54b749c4a140f6866a4ca14c9340870e931a8ac984404dd310cad003774045feeef71b2b6a4025727b1a61dc5e404e05138f2ad65040d6fbc16afcf7334065f376"; "0e80302740f0347f34e0031d40d6939e46f3961340732d9a842abc084059ca982966bafc3f4c0a0703b2b9d63f337758a61ebacc3f"];
["504b030414000000000000002100479ce44788000000880000000c001400616c5f6e756d5f732e6e70790100100088000000000000008800000000000000934e554d5059010076007b27646573637227"; "3a20273c6938272c2027666f727472616e5f6f72646572273a2046616c73652c20277368617065273a2028292c207d202020202020202020202020202020202020202020202020202020202020202020"; "20202020202020202020202020202020202020202020202020202020200a1b00000000000000"];
["504b030414000000000000002100f287019488000000880000000c001400616c5f6e756d5f702e6e70790100100088000000000000008800000000000000934e554d5059010076007b27646573637227"; "3a20273c6938272c2027666f727472616e5f6f72646572273a2046616c73652c20277368617065273a2028292c207d202020202020202020202020202020202020202020202020202020202020202020"; "20202020202020202020202020202020202020202020202020202020200a1300000000000000"];
["504b030414000000000000002100c5044c7ff0010000f00100000d001400616c5f636f656666732e6e707901001000f001000000000000f001000000000000934e554d5059010076007b276465736372"; "273a20273c6638272c2027666f727472616e5f6f72646572273a2046616c73652c20277368617065273a202834362c292c207d2020202020202020202020202020202020202020202020202020202020"; "2020202020202020202020202020202020202020202020202020202020200a11ea2d819997713d7322e1849997713dbf5d67859997713dd03e4c639655c93e3d2f6e7b0afd3c3f11ea2d819997713d91"; "47794b9b97713d9bcf769b9997713d6bab94e78c07463fe6bf942e8abc423fdad143dd4c519c3fad8c6417db3b913fa4c8ef6a5cd8c13fd46cae289fb3ca3fadca0f7ec6cdc23fdf7b0d55a19dc63f09"; "a0e15ebe53d23f31d19d68b712d13fd8611573834bdf3f289e6a131f14e83f9f86a3c91ae3ee3fa78127c1c3faea3f8720537a730fe33f334a2da25e0bd03f3e454fe1b851f03f49c6af74e94df03f15"; "aa2ed0b871b23f6ffc03ed5cb2483f3018a13abb97713d69b127a19f97713df1ea678f78db903fe3a259740552923fa444b0ac8cc1bb3ff9fe6b766751cd3f5e20bc20cf78d03f7d2d19892f20c63f79"; "cb5ca10170d33f1ddd6a234cb5e93fce3e3599e49ff03f723dcbbb9395f13f7dff2c1f8ccfe03f9feb41ccabb1ca3f1ba6348c0e95d83fff819abf73addb3f6d58cbeba36ebf3f9f9cf07964e6493f"];
["504b030414000000000000002100c6adf9d9f0010000f00100000b001400616c5f657870732e6e707901001000f001000000000000f001000000000000934e554d5059010076007b276465736372273a"; "20273c6638272c2027666f727472616e5f6f72646572273a2046616c73652c20277368617065273a202834362c292c207d20202020202020202020202020202020202020202020202020202020202020"; "202020202020202020202020202020202020202020202020202020200aaf1a18847c09134102c257fe290813412fef27a1b30713419fb754cd0bf112419a9f4aa159e6d040cfbd74e342e5d0408d1ba0"; "3bd9e3d0407dd3315fa1c9d0407a92e6bc2f44b9407f571c4ebf25b2405e318ddb86519a4063ed3fed69938c4006f66cb601bc7f40c1a213f7f35972408020eba5a4e3654058e1f1d834045b40440dad"; "f48d0a5140196b7dcadd1737409f37c71fa93123402f5c451c45141840f45c16e1db4110406f7cd7873c6c07400eb78ab873570240d2b7ec01ac2eda3f287fb7deada5c03f3a740a5c0fc9c93fb2db90"; "381269ab3fdd3a5f6cb77cbe4098cac3fc4f53a340883b819363eea240154ac795eb8a91407dc8e45010368540c4f8b9c74e6977403d6efa1a00156b4023057f4409b85f405478da36efe750405954e5"; "6e4b7b33402f0c629050582840853ce412e79c1f40fe52a7ec307b1440cc566b1169870940415da614e16602401aba3c0c6556e23f5a93b3730f5ed63fa725c9a70fc8b83f7d735d9a60daa23f"];
["504b030414000000000000002100479ce44788000000880000000c00140073695f6e756d5f732e6e70790100100088000000000000008800000000000000934e554d5059010076007b27646573637227"; "3a20273c6938272c2027666f727472616e5f6f72646572273a2046616c73652c20277368617065273a2028292c207d202020202020202020202020202020202020202020202020202020202020202020"; "20202020202020202020202020202020202020202020202020202020200a1b00000000000000"];
["504b030414000000000000002100f287019488000000880000000c00140073695f6e756d5f702e6e70790100100088000000000000008800000000000000934e554d5059010076007b27646573637227"; "3a20273c6938272c2027666f727472616e5f6f72646572273a2046616c73652c20277368617065273a2028292c207d202020202020202020202020202020202020202020202020202020202020202020"; "20202020202020202020202020202020202020202020202020202020200a1300000000000000"];
["504b030414000000000000002100bf60dbc0f0010000f00100000d00140073695f636f656666732e6e707901001000f001000000000000f001000000000000934e554d5059010076007b276465736372"; "273a20273c6638272c2027666f727472616e5f6f72646572273a2046616c73652c20277368617065273a202834362c292c207d2020202020202020202020202020202020202020202020202020202020"; "2020202020202020202020202020202020202020202020202020202020200a42879b829997713d11ea2d819997713dbd651347720dc93ef4649704bd25413fc8e56dc79997713d30794a879997713d11"; "ea2d819997713d11ea2d819997713d8a3d5e6e59a0483f6eadfba97d9d7a3f881305e3c360873f5e7d11293ca8a93f074d8a247d84bf3f6e64022be41ad83f25a340cff6bf4a3f2a8ba192982bde3fb4"; "d8b772dd14da3f2a16f12b0b5bdb3f2b0103e0842fe43f12ed3162fea8ec3f40b0649f1da4ee3f6fa17e8f3578e93fa2e93106eb40cf3f48a3f89ad173dd3f1a6e1b74239be53ff181594ed88ce33fc1"; "bb28f9ca02c33ff05e18fdd2d24d3f5419e7630ba51b3f11ea2d819997713decb285869a97713d3be55e67b7686d3f2846a10e9f2aa73f43eee00b46c1ca3fda339bd9eaafa93f6069839765c1b63f96"; "e57044b561d43fac209b7bfdffef3fca9324f22e22f03fc8226baa6f98ed3f31440e9eadd3e33fcb2993df7a8ce53fb647a73c6ecaeb3f457168411244e73f83af4b36c320c53f4f0fe604ccad5b3f"];
["504b03041400000000000000210045cf5daaf0010000f00100000b00140073695f657870732e6e707901001000f001000000000000f001000000000000934e554d5059010076007b276465736372273a"; "20273c6638272c2027666f727472616e5f6f72646572273a2046616c73652c20277368617065273a202834362c292c207d20202020202020202020202020202020202020202020202020202020202020"; "202020202020202020202020202020202020202020202020202020200a09e28e6d5c161741474a708157151741c820cfadfd14174104b38c927a93d240b1ef024ebd8fd24030ad8a47288fd240d0c0ee"; "d1438ed2409c3c2356532ed24002286dc36da5bc403af769191a3da44058aa29ffb3df9a408f59b06229608c408055bc0a1253804082f987237ed47240b122137314f06640e292116208785b40dc58d0"; "e97270524050fc4012bad83240600695765feb23407b85348d452d1a40c4da0887fca612406fa290a0ec650b405c5ab98e2f6f0540a1c7df9d47dcd43fdd8c8c1e749fc43fd9a1afa6cc92d93f697b2f"; "d5f15fb53f534dd6bdbd5bc140aa18f777d4b5a5409d0f18ca4fdba440dfdd71c209359240e6c7876372d385407e56a446aed277407d6bbd0fb4096c40dce0b545ab645f40247d7b1439414e407388e6"; "cfaa6335408d6a316afb302a40ac863f4c2ccd20401f497718065a1740f45777eeb6550d40a911715b081ee93f94703f720e37dd3ffa1831094f71d13f9b8079b33b33c33f413e6b2624dbac3f"];
["504b030414000000000000002100479ce44788000000880000000b001400705f6e756d5f732e6e70790100100088000000000000008800000000000000934e554d5059010076007b276465736372273a"; "20273c6938272c2027666f727472616e5f6f72646572273a2046616c73652c20277368617065273a2028292c207d20202020202020202020202020202020202020202020202020202020202020202020"; "202020202020202020202020202020202020202020202020202020200a1b00000000000000"];
["504b030414000000000000002100f287019488000000880000000b001400705f6e756d5f702e6e70790100100088000000000000008800000000000000934e554d5059010076007b276465736372273a"; "20273c6938272c2027666f727472616e5f6f72646572273a2046616c73652c20277368617065273a2028292c207d20202020202020202020202020202020202020202020202020202020202020202020"; "202020202020202020202020202020202020202020202020202020200a1300000000000000"];
["504b0304140000000000000021008b10181ef0010000f00100000c001400705f636f656666732e6e707901001000f001000000000000f001000000000000934e554d5059010076007b27646573637227"; "3a20273c6638272c2027666f727472616e5f6f72646572273a2046616c73652c20277368617065273a202834362c292c207d202020202020202020202020202020202020202020202020202020202020"; "20202020202020202020202020202020202020202020202020202020200a11ea2d819997713d5a3089909997713d11ea2d819997713d4720371925c8c53e1088c9e4eafc3b3f11ea2d819997713d68ee"; "30f29997713db332a5859997713defa15ac09997713d3d2957c76263533fc0c68d0b2c957b3f35508840c5e4a93fad7cadad9d97713d081aabb6b9cac63f08afe07c2249cb3f3ebb0acdf847bf3f7469"; "73206ccce03f0cc14a0784cad73fb6d7fbf600ced63f2b8e79ddfb78e43f47c232fec5e3ee3f5f30f3ad87b1ed3f7c6666f49aa2e53f4770673cc951d53f22d8d8d84fbde53fbcdad9a8f3ebe93fad67"; "6310bd93e33f8916ec45f0ca4b3f8bfd69a09b97713d11ea2d819997713d4b6d2df4454fa23f0a44ad69c2aea23f47bbd174ab65bf3f22d735b04349c63f07cea189d0dcaa3f4eaf6401efd9c53f0cc8"; "d4069434e63f21679504ca8aee3f9266b885c3aef43f95bbe2f62972e63f9ca78737ea91d73fc80264dd3ae4ef3f600dbabf0a7ef33fac465c18f069e53f90e0b2191f75a53f6d9d50c5716e583f"];
["504b0304140000000000000021001b06072ef0010000f00100000a001400705f657870732e6e707901001000f001000000000000f001000000000000934e554d5059010076007b276465736372273a20"; "273c6638272c2027666f727472616e5f6f72646572273a2046616c73652c20277368617065273a202834362c292c207d2020202020202020202020202020202020202020202020202020202020202020"; "2020202020202020202020202020202020202020202020202020200a805ca03bb61668416ecc1a329eb01c41f37864c648b01c41f9d336b80fb01c4149d1c8faaee9d6404793c44b9de8d640198a8cb7"; "65e8d640e710d04bfee7d64025c11cb85449c640e7e3b41c77fbbf4081e293663f53a54033a2f086d61e9a408e902d706c9d8c403967d4fb4fca804024129312934f73409a079e9bdac66740daa158e4"; "281f5c4021baf25a4aac50407005a763c8c831401cbdbfa0d0cb244025dfa065b9d61b40cc61b6b1499214400bcce9b194df1040af4f11ebfdb7db3f7e19e511759bd83f8b1433b30247c53fd3bced48"; "cd16ce3f466fd7ed5653c3405a22cae9a64ea94001e78606f923a74009e1a936cf6293401cefd3bb3e2d86402443d6f9445978404ab894d36dd56c40b21fd1690f945e40b8626f49d12845407c8b18d9"; "6d873540f94c4d4643862b4039cf5e5ab24b2240153a1199bd9916405d1cea0228aa11409d0c8a8b3018f03f4ba229509222e33f9be93d9c7484d63fef0c5d7e7968be3fbfb21261b6e2b23f"];
["504b030414000000000000002100479ce44788000000880000000b001400735f6e756d5f732e6e70790100100088000000000000008800000000000000934e554d5059010076007b276465736372273a"; "20273c6938272c2027666f727472616e5f6f72646572273a2046616c73652c20277368617065273a2028292c207d20202020202020202020202020202020202020202020202020202020202020202020"; "202020202020202020202020202020202020202020202020202020200a1b00000000000000"];
["504b030414000000000000002100f287019488000000880000000b001400735f6e756d5f702e6e70790100100088000000000000008800000000000000934e554d5059010076007b276465736372273a"; "20273c6938272c2027666f727472616e5f6f72646572273a2046616c73652c20277368617065273a2028292c207d20202020202020202020202020202020202020202020202020202020202020202020"; "202020202020202020202020202020202020202020202020202020200a1300000000000000"];
["504b03041400000000000000210093e6a379f0010000f00100000c001400735f636f656666732e6e707901001000f001000000000000f001000000000000934e554d5059010076007b27646573637227"; "3a20273c6638272c2027666f727472616e5f6f72646572273a2046616c73652c20277368617065273a202834362c292c207d202020202020202020202020202020202020202020202020202020202020"; "20202020202020202020202020202020202020202020202020202020200a66e89f819997713d11ea2d819997713d2a539c819997713d57fbe355c537c53e9ad091bed1fc3b3f11ea2d819997713d783a"; "ddc09997713d11ea2d819997713d8e1fc487fbd2503f11ea2d819997713d969b94c9802f883fc09bfdab2135aa3f973d0d6f944fa03fc09ab24c540bcf3fa3080f56d2cccc3f11ea2d819997713ddc0d"; "93ab9d7dcf3f40fe560b4792cd3f43b40e077cfae33fbde2ed3f281bec3f8ed3796977a2ee3fcd3fba778e7eec3fdfa2307f6b0ce13f364b0db7e094d13f4f069c9210b5eb3f576f849e899ed93f741b"; "5eead2b8e03f3556b0572cb34b3f81085ed43d93393f44e782959997713d40d833a972009d3febf12defc131ae3fe45b8d3c9ee0ca3f91baf0c458ebd63f11d3e697010acd3fa16f590febbac63f407e"; "75984ea9e73fabae99c70652ed3f7bf8906d95b4f23f19644873d31ceb3f4ad8b3aadea9e53f2e5923c10ffdef3f55c9bb75cbcff93f9f2284169b34ef3fffa30453b3a18c3f699ede12c8dd383f"];
["504b030414000000000000002100d34c7f25f0010000f00100000a001400735f657870732e6e707901001000f001000000000000f001000000000000934e554d5059010076007b276465736372273a20"; "273c6638272c2027666f727472616e5f6f72646572273a2046616c73652c20277368617065273a202834362c292c207d2020202020202020202020202020202020202020202020202020202020202020"; "2020202020202020202020202020202020202020202020202020200a485a4b68322c6c41301d96779a082141f4d50c61250821418e8a0d38cc072141bcf61b5271fdd9405a38074fc8fbd9405452d889"; "3dfbd9405a667fd5baf9d9408add6ecbe874c340e0b17722133bc240e1fd07d95fcba740406a7c4be2c79840d2e7d9cf61448d4074908f39782f8140514318969f0a74403d67393441c86840f5e1af31"; "92dc5d40b2f3531854194b40ce36526b421d32400b2c535a90572640f787e458d5a31e402a833706e505174005f9717d350e14407d481dfcae6ccc3f697b544137e1d03fc20622047b2dc43fdf18e1bc"; "6dfbd13ff0733a75043dc640c0819687ed16ae40aee7ee7472a2a8406210d1363e9794403edec645206c8640e888cc02bc4179408ae12ed29f8f6d4003bee278bf1e604064a5398d1b2f4340957a7792"; "f25936408dd48191eee22c40b55c2e5f62522440b09566f08c8518407b9dd296a372f73fe19522aa28acf13ffe1297dd2cf7e73f22601d6c3b29df3f81b02313b74ebd3f2feacd346aa1b23f"];
["504b030414000000000000002100479ce44788000000880000000c001400636c5f6e756d5f732e6e70790100100088000000000000008800000000000000934e554d5059010076007b27646573637227"; "3a20273c6938272c2027666f727472616e5f6f72646572273a2046616c73652c20277368617065273a2028292c207d202020202020202020202020202020202020202020202020202020202020202020"; "20202020202020202020202020202020202020202020202020202020200a1b00000000000000"];
["504b030414000000000000002100f287019488000000880000000c001400636c5f6e756d5f702e6e70790100100088000000000000008800000000000000934e554d5059010076007b27646573637227"; "3a20273c6938272c2027666f727472616e5f6f72646572273a2046616c73652c20277368617065273a2028292c207d202020202020202020202020202020202020202020202020202020202020202020"; "20202020202020202020202020202020202020202020202020202020200a1300000000000000"];
["504b030414000000000000002100235b1f39f0010000f00100000d001400636c5f636f656666732e6e707901001000f001000000000000f001000000000000934e554d5059010076007b276465736372"; "273a20273c6638272c2027666f727472616e5f6f72646572273a2046616c73652c20277368617065273a202834362c292c207d2020202020202020202020202020202020202020202020202020202020"; "2020202020202020202020202020202020202020202020202020202020200a11ea2d819997713d11ea2d819997713d06b25d829997713de5b6bcf1df10c23effe722d9b8cd363f11ea2d819997713d11"; "ea2d819997713d11ea2d819997713da38ac3129b97713d4720c4b8c43a533f1dc7fa3138afa53fc8bff5083334a33f5a5ccdafea74b53f11ea2d819997713d10f09869f45e513f341035ca8682933f3e"; "054a5a5f25d13f58024dca5f6eb03fe3ac350f4974f03fe7216ad45f2cf73ff989b17a63c5f63ff6359d9ce9c8f53f69da8ca19997713d008a460e691ea23f9ed1aa922931d93f6e42ea803dabe03fe4"; "dfe85de8ccb03f7d0120d2ec39433f42ca7b989997713d11ea2d819997713d47845183a690a23f96a1533e7d56bd3fe79e1aecd19bd03fcad4eceb55aad63f63c89c9e5982d63fc397d64796a5c83fe6"; "49b24de3bcb83faeee9ff1a21de13fc1813ae7aa3aef3f7428ae121020c03f237bd65cd7b3ea3fabd0341cadc7f73fc78abad38d990240110f1c87bdc0fc3fa13fad0d0407e73fc1ecb93cb66a403f"];
["504b03041400000000000000210023a79c4bf0010000f00100000b001400636c5f657870732e6e707901001000f001000000000000f001000000000000934e554d5059010076007b276465736372273a"; "20273c6638272c2027666f727472616e5f6f72646572273a2046616c73652c20277368617065273a202834362c292c207d20202020202020202020202020202020202020202020202020202020202020"; "202020202020202020202020202020202020202020202020202020200a198592f444012541cbf12c2445002541ccd7b603e5ff2441d42450ecf6fc24411ef0a16427f0df40710bf5988eefdf40753eae"; "2fe0eedf40cc041cab55e9df407706b848626bc5404f41b3ce5c1bc5400292a7baf71aa940ad83fb6c1bae9a40803aba41d7d38d406464585ae1838140f49747a8e3ac74403bf214884a646940a04f69"; "7bc1d75f40dcd54c7ddca7454040f5bff771be32408d9536adfbf726407f372e27c01c214021812e2c6b011c40ddb3af0a05ebec3f761a23e39f49e33fd974bd58414bc93f47131a589552d03f76fe2b"; "779b71c03f9e7da8518864ca4079cae12e3a62b140ba4245c9c21fb140992fb04137cea2405077dc241087944027325c033a88864079956bdf1ce27940640f20c8d4d46d40a4c7989eb1e65f403e30e6"; "f2722e4340649f8176b9a83740d77a554b0af72b40e8989477096523405e2e1ceb123f1d409ec9b021ebd2fa3fab41f34d4f63f03f4285deab6e67e43f1614c81bfc37da3ff0ef20f8df82b63f"];
["504b030414000000000000002100d99c4e8b88000000880000000c00140061725f6e756d5f732e6e70790100100088000000000000008800000000000000934e554d5059010076007b27646573637227"; "3a20273c6938272c2027666f727472616e5f6f72646572273a2046616c73652c20277368617065273a2028292c207d202020202020202020202020202020202020202020202020202020202020202020"; "20202020202020202020202020202020202020202020202020202020200a1a00000000000000"];
["504b030414000000000000002100f287019488000000880000000c00140061725f6e756d5f702e6e70790100100088000000000000008800000000000000934e554d5059010076007b27646573637227"; "3a20273c6938272c2027666f727472616e5f6f72646572273a2046616c73652c20277368617065273a2028292c207d202020202020202020202020202020202020202020202020202020202020202020"; "20202020202020202020202020202020202020202020202020202020200a1300000000000000"];
["504b030414000000000000002100e79664e0e8010000e80100000d00140061725f636f656666732e6e707901001000e801000000000000e801000000000000934e554d5059010076007b276465736372"; "273a20273c6638272c2027666f727472616e5f6f72646572273a2046616c73652c20277368617065273a202834352c292c207d2020202020202020202020202020202020202020202020202020202020"; "2020202020202020202020202020202020202020202020202020202020200a52a82e819997713dd35a8b8c9997713d3ad1512e9ab2bf3ef95a6d463de93b3fa38db6889997713d11ea2d819997713d05"; "7245ba9997713d11ea2d819997713d7bdd6410e5083d3ff8e3a02d7e435d3f6339ac2285ce963f54480129c5b08e3f7bfde8f680d1c53f1c59f59cff67c93fc4f4678760b4b43f4d9ca2a083a1da3f11"; "e58f112884dc3f4bc62444ebc6db3f7b434a822d6be43f9a9f3afd817feb3f9d50c6d4a578ea3fce11cba0d578e23f53be43767977843f3c2ccb8f88f3d33f010ac353f919ea3fa71bf2a7e695ea3ff0"; "1ee6f8433c453fe3a53772a097713d11ea2d819997713dcf1c87724f817e3f2d2c7ab69d97713da4ad95885f44b63fa5dd9e7f415dc73f13ab6e8ed700b43f7798580f9133c13fb7805b67bb68e13f23"; "f8a0b31f52ef3f87db11cfd4b4f73fff0d3b0c4160f13f2f05c4771d28d53fdba4b896e7b3004027e4d702d17306400dd40e337093f83f1c2376060bb5673f93b1ea745a170f3f"];
["504b0304140000000000000021006e118505e8010000e80100000b00140061725f657870732e6e707901001000e801000000000000e801000000000000934e554d5059010076007b276465736372273a"; "20273c6638272c2027666f727472616e5f6f72646572273a2046616c73652c20277368617065273a202834352c292c207d20202020202020202020202020202020202020202020202020202020202020"; "202020202020202020202020202020202020202020202020202020200a6ef0fdce57302b41072596aa40302b41478bd3d434302b41a25dadd265f3e0404dfe992431f3e040417001c422f3e040068411"; "200df3e040b770140b95ede040d5c41f652e38ca401ed9eeddacf3bc405dfaf0fc6d8ca84005e3414d4cf59a40f6509b2433818e408e166987d8bb8140ae230236ab5c7540c2a8dd668216694073e781"; "768e596140ad377d05403e4340904f8c1057813340e468022414ae284068426b307da022406cbbe10d816821406ebec3e28084bf3f844354ddb9c4c93f65ad6bb7c984d53f585739b62c33d53fe92e7e"; "600f11cf406d2e7c914648b2401bf8747ab43ab240837c8d49e942a040ef59d23bdcf7944071de53de38848640016d37d2798a7a4022d066190c286d401cf9450171e45a40d5b7efc68f9842404fa5a9"; "8775ef3740be8e3c61da4e30404d530880e02e2340bae41c091a2123403e17e746b424fe3f4a7191c8b592f13fdedf2dc06418e53f37632ca72366c23ffe42890266c9b53f"];
["504b030414000000000000002100c0958b8188000000880000000b0014006b5f6e756d5f732e6e70790100100088000000000000008800000000000000934e554d5059010076007b276465736372273a"; "20273c6938272c2027666f727472616e5f6f72646572273a2046616c73652c20277368617065273a2028292c207d20202020202020202020202020202020202020202020202020202020202020202020"; "202020202020202020202020202020202020202020202020202020200a1d00000000000000"];
["504b030414000000000000002100f287019488000000880000000b0014006b5f6e756d5f702e6e70790100100088000000000000008800000000000000934e554d5059010076007b276465736372273a"; "20273c6938272c2027666f727472616e5f6f72646572273a2046616c73652c20277368617065273a2028292c207d20202020202020202020202020202020202020202020202020202020202020202020"; "202020202020202020202020202020202020202020202020202020200a1300000000000000"];
["504b030414000000000000002100d4af70c200020000000200000c0014006b5f636f656666732e6e70790100100000020000000000000002000000000000934e554d5059010076007b27646573637227"; "3a20273c6638272c2027666f727472616e5f6f72646572273a2046616c73652c20277368617065273a202834382c292c207d202020202020202020202020202020202020202020202020202020202020"; "20202020202020202020202020202020202020202020202020202020200ad70333849997713d8853e91fd9f06c3ee1c77b63e5dfc13e24ca71cc43fb403faaf3bd00bc25d03e4b03118fe213fb3ea175"; "cdd4ce5c9f3e6cfe649b9b97713d08755d04a6f5463f094ca6ba0659863f32158f08a9c4753ffd6f6b249e13a93f349ec72fcbe4b53ff0feb9bab5e8db3f4e8b9a4e6ba5583f218d18eff005e23fcee7"; "afc4f0d8da3f9c54889e31b8eb3f1c5e76235250ea3f22cc2b9274fbed3fc822384bababe63ffca1165a095a463fc4f34ca032f5573feaf684b979f4623ef04cca279a97713d4932de2e9a97713dc8f5"; "e3de94eaee3fe232cf9f3b6ab43ffd90ec625540483e10d43a662a4a513f9025dedc9a97713dfafd70479b97713d1321969e9e97713da44b75539f97713dd49558055581313f648e3cd84efec73f4267"; "20649e97713d17d36e0dd169a03fd5dda8b79afadd3f191eefd28f7cf43f65e172ae5e4ef23fddc6690f793cf93fb1fddab7f6f8e63f4514239eeb28fa3f1a2f6975bdda0640c8aaf94d718d0040fd56"; "d443f3fdec3f167245c217c1c53f"];
["504b03041400000000000000210091bae6c800020000000200000a0014006b5f657870732e6e70790100100000020000000000000002000000000000934e554d5059010076007b276465736372273a20"; "273c6638272c2027666f727472616e5f6f72646572273a2046616c73652c20277368617065273a202834382c292c207d2020202020202020202020202020202020202020202020202020202020202020"; "2020202020202020202020202020202020202020202020202020200a58ae31a35ec82b41ec367a014cc82b416b6d769842c82b414da8f4d2c575e140b4584831a275e140c1a4eda09775e140bea863a7"; "8675e140674705b5ca67e14007bbcebdd256cb40c6b3758b8a80b0404acc046a7130a9409f03be5081029b40b3edb3cc6d2e8f40601ff1c22d1182406684854e8d0a764087b069e10da4694094c0c7d1"; "f3906040d0e6af43cf6041407e9061ad98f73340e2ee2673f3182b40e140143f3dde254069d0f0ab5d512440d5230e7c3d51933f02afefaecab8a63f1c828bbf511fe83fa386d198dab2e73fb7b6578f"; "8f03b23ff8711123ee329e3fdb3f97011064c43fbeb0881ca23dd040b650e87be13eb340136402411f23b34055634ff0c4a6a040562a711f0153954050652efe87e28640c7cf5a2f3b247b407b5cc467"; "383d6d4004c42c0d77b65640be06ae49baed424014ef3dee167038404137dc2cd42f314075557e70ecaf26404cdc51231afb02403f8e9c6ec30402407e06ef2c5d77f63f95ef88056550ed3fc5f547ec"; "dc33e23feb3eb4750197aa3f"];
["504b030414000000000000002100c0958b8188000000880000000c00140063615f6e756d5f732e6e70790100100088000000000000008800000000000000934e554d5059010076007b27646573637227"; "3a20273c6938272c2027666f727472616e5f6f72646572273a2046616c73652c20277368617065273a2028292c207d202020202020202020202020202020202020202020202020202020202020202020"; "20202020202020202020202020202020202020202020202020202020200a1d00000000000000"];
["504b030414000000000000002100f287019488000000880000000c00140063615f6e756d5f702e6e70790100100088000000000000008800000000000000934e554d5059010076007b27646573637227"; "3a20273c6938272c2027666f727472616e5f6f72646572273a2046616c73652c20277368617065273a2028292c207d202020202020202020202020202020202020202020202020202020202020202020"; "20202020202020202020202020202020202020202020202020202020200a1300000000000000"];
["504b030414000000000000002100e0428e8000020000000200000d00140063615f636f656666732e6e70790100100000020000000000000002000000000000934e554d5059010076007b276465736372"; "273a20273c6638272c2027666f727472616e5f6f72646572273a2046616c73652c20277368617065273a202834382c292c207d2020202020202020202020202020202020202020202020202020202020"; "2020202020202020202020202020202020202020202020202020202020200a3d459d859997713d11ea2d819997713d60ed45bc041ebf3e11ea2d819997713dd5cd7ee7a329b83e1726840eb05a3f3f3a"; "650143bf99713d6ab040819997713dc48df058f7e24f3f0c67efb055ce8d3f14a4480a427d903fba54f5954f50a13f1de28ae40a68b73f3e5d7cbf761ae13fa0dca928c197713d10b631d20de5db3f1c"; "b207b31215ce3fe8a254b94b21f33fbb985152447bfb3f36b9a3a9a394a23ff7c908009a97713d63c955144d82b33f326101a79997713de63e1b70f8f6bb3fa4596dceb941f13ff089b04b1298713d10"; "773fa9fb79e53ffc35893ca10c6a3f22e99098c4d77a3e83a01bcfc12a513ff54c6f959e97713d76094acf9b97713d7318afff37288c3fe61e10849997713d99891c63defa393fd291eb2c1787d03ffb"; "cf1993cc3ec23f949a2ebac797713d4c5c48bd8773df3f485db54f6574fe3fb50e7579b67df23f7ff939356f32f33f09cfe1c19ad7ee3f3788bde211daff3f4c0c6dbc87860c404431adf4b19ef73f8b"; "8d7e306ec0ca3fd428ab7d7b2bd83f"];
["504b03041400000000000000210009e0224f00020000000200000b00140063615f657870732e6e70790100100000020000000000000002000000000000934e554d5059010076007b276465736372273a"; "20273c6638272c2027666f727472616e5f6f72646572273a2046616c73652c20277368617065273a202834382c292c207d20202020202020202020202020202020202020202020202020202020202020"; "202020202020202020202020202020202020202020202020202020200a6584f4b2fa1c3141f263030df71c31412f83c60cf51c31410650ff854063e4406d1c5a103e63e440cf71301e3d63e440dad03e"; "633b63e4405c27df700b6fd040c59c9a52b6fccd4072ddae758d66b04022926e97a2d6a8407cc7bf1cb5ee9a40510c4dc09eb58f40e7059c5b1b67824067b722f620857640b9e9d30b90fe6a40da8de3"; "6e18f25c40afa89498025741405268fe260bb433400c912fca13e12b406cb770d35997294074c5e322836d2a40e53651725c8be93f5c5be8756177a53fcadd6cd1413bc13f545845ea7aeeef3fe91560"; "c2af69b03fff759db7f6089c3f09cc293f5e98713d99eca54daabcd1401fbade694658b540a89c58a7e920b540eec70ad1b3b2a14042a3ba51768895409ac4af0ad76b8740c370343a78517b40857837"; "272d5d6d403f5779a14b795440c7bc1867a99a44403becda19ea8338400081fc54573e2c40c3a52b4854632c400fd516ec02cf04404531801f9c090540e55ffe3a1645f83ff10f4c416da2ec3f79e6b1"; "1cb10ec93fc2be32fc2daebc3f"];
["504b0304140000000000000021002392040f88000000880000000c00140073635f6e756d5f732e6e70790100100088000000000000008800000000000000934e554d5059010076007b27646573637227"; "3a20273c6938272c2027666f727472616e5f6f72646572273a2046616c73652c20277368617065273a2028292c207d202020202020202020202020202020202020202020202020202020202020202020"; "20202020202020202020202020202020202020202020202020202020200a1e00000000000000"];
["504b030414000000000000002100eb8ec49e88000000880000000c00140073635f6e756d5f702e6e70790100100088000000000000008800000000000000934e554d5059010076007b27646573637227"; "3a20273c6938272c2027666f727472616e5f6f72646572273a2046616c73652c20277368617065273a2028292c207d202020202020202020202020202020202020202020202020202020202020202020"; "20202020202020202020202020202020202020202020202020202020200a1400000000000000"];
["504b0304140000000000000021008646ae9510020000100200000d00140073635f636f656666732e6e70790100100010020000000000001002000000000000934e554d5059010076007b276465736372"; "273a20273c6638272c2027666f727472616e5f6f72646572273a2046616c73652c20277368617065273a202835302c292c207d2020202020202020202020202020202020202020202020202020202020"; "2020202020202020202020202020202020202020202020202020202020200a551149819997713d11ea2d819997713d54bbd74a1821ba3e976af059c6e7423f1be1c4a39997713d11ea2d819997713db7"; "4760b09a97713da6149d999a97713db49aa1c79997713dd4fe9faa2ec6403fdeafa14e2bce953fb1ac958ac73fa83f11ea2d819997713d386267a97bdbc93f5d8e48524499cd3f1709360d9c97713d5f"; "8a44c3f086d33f10d21a1a66ddcd3f9d4b82637414e93faeae236e1294eb3ff2d990979041ed3f5e552d713745eb3f11ea2d819997713dbdb56617a097713da8e4bd068adfd93f27196d2d019bdc3f11"; "ea2d819997713da666e8b336a6f83f81696f2dc495ba3ff763b6d33bf2673f4c5f7f60a2e1533f11ea2d819997713d11ea2d819997713dbdfb74d39997713d5e1d92de4864a53f4de1ffe803bead3fbd"; "0249357749c83f40ac5499a830d63f6483918ec173cd3f72b48d574753ce3fd53005f9eb19e63f76c24f5999e3f83f7e8c7c9e7365f43fa1506d3f1ee6dd3fac061cacaa40f43f2750515231e5fd3f0a"; "35198cd751f93f16dc2d60407a0e4027b9425bc018cf3f6e0ff7f15dcbc73f"];
["504b0304140000000000000021002bd6564e10020000100200000b00140073635f657870732e6e70790100100010020000000000001002000000000000934e554d5059010076007b276465736372273a"; "20273c6638272c2027666f727472616e5f6f72646572273a2046616c73652c20277368617065273a202835302c292c207d20202020202020202020202020202020202020202020202020202020202020"; "202020202020202020202020202020202020202020202020202020200ac24bb9391eac354173b47aa81dac354126373d441dac3541d6747c56cb0fe640b4ea3c9dc40fe6409cb231fdc20fe6403ed0a5"; "8bc10fe640fd3c5a32be0fe64096a121e63df3e54056cff98c0380d140b20ea697d5c1b1409615b568d588a640811f493c43269b40a6651fd01d34904004000cd51bcd8240aaec9bfcb6e57640558a2b"; "48719e6c408525f7858b2e59405cdf1885d9c441404f52de6d5e9f344048303f3c8cf72e40b48f70d22ba72d405b4dad354d4bf03f80a23e9eacacf93f5fd7df455e7ad63fe508cc5f221bc53f8abf53"; "f03461e23f3823f714034eba3f0fc351e2908ea73fc8826a1734ab9e3fc4aedd8ce6ecd4404f1c7a51ddecd440a7ccad6d89ebb840fdb97d845a67b840f010233cb03da34082b52c1a56959540dbddfe"; "8a41f987406c52c5185a787b4031bc9a0c76986c408338279bb39e5140a3dde395e06e4540a47978f052ee3b40dd3377d5fe772f402b2f79f2197230408463102a3f7d0840c269ac8ceb3b08402c4d1e"; "fa7846f03f9e12c2803a0afc3fb5a4fb33c2a6cc3fbb50d19e08dbb33f"];
["504b0304140000000000000021002392040f88000000880000000c00140074695f6e756d5f732e6e70790100100088000000000000008800000000000000934e554d5059010076007b27646573637227"; "3a20273c6938272c2027666f727472616e5f6f72646572273a2046616c73652c20277368617065273a2028292c207d202020202020202020202020202020202020202020202020202020202020202020"; "20202020202020202020202020202020202020202020202020202020200a1e00000000000000"];
["504b030414000000000000002100eb8ec49e88000000880000000c00140074695f6e756d5f702e6e70790100100088000000000000008800000000000000934e554d5059010076007b27646573637227"; "3a20273c6938272c2027666f727472616e5f6f72646572273a2046616c73652c20277368617065273a2028292c207d202020202020202020202020202020202020202020202020202020202020202020"; "20202020202020202020202020202020202020202020202020202020200a1400000000000000"];
["504b0304140000000000000021002358b98310020000100200000d00140074695f636f656666732e6e70790100100010020000000000001002000000000000934e554d5059010076007b276465736372"; "273a20273c6638272c2027666f727472616e5f6f72646572273a2046616c73652c20277368617065273a202835302c292c207d2020202020202020202020202020202020202020202020202020202020"; "2020202020202020202020202020202020202020202020202020202020200a11ea2d819997713d877866899997713d809bf6e2b891c03e45372077d951443fbec3e942b897713d11ea2d819997713d17"; "b487eaa597713d11ea2d819997713d11ea2d819997713de2d4735e47cc453fa2540cbb05e4983f69e04e60947caf3ff68b69d1411c763f3592eea5297bbf3f04cb423e6b3cbd3f7f0ca249ded2da3f25"; "64da8c2193de3f1364bc06e6b0ce3f249597057220e53ffe2d2e05660d0640db90edf42075643f11ea2d819997713dea4ec18c9c97713d636811683bfae33f154645f8b7a9ab3f11ea2d819997713d82"; "f5d2b6fbd8f13fc0b1f76dd07df03f43ef11df6cfebb3fc724ed607f106b3f2557595e8aa0483ffab0f52176ef3f3faca90c739b97713d11ea2d819997713d8c3619272aa5aa3fc1af564b3367b63f80"; "2db3a331a1bf3fa65c51d5dd9db13f88ec6e5b4d95c23f393f7b6ef9d4d63f0b687cb9dbcae43fc247ccba9208f13fbb51542373e10040b970a8d5564ccc3f19913a0285f0f93f85c1870582f6f53f73"; "6cf357a52c1040516b5ade98c1fc3f3fa7633ed604d13f56adb5317616c93f"];
["504b0304140000000000000021008782098a10020000100200000b00140074695f657870732e6e70790100100010020000000000001002000000000000934e554d5059010076007b276465736372273a"; "20273c6638272c2027666f727472616e5f6f72646572273a2046616c73652c20277368617065273a202835302c292c207d20202020202020202020202020202020202020202020202020202020202020"; "202020202020202020202020202020202020202020202020202020200a7abac0356da034411c99b76c6ca0344130ccfbeb6ba034412b0dfb4a7cd2e640a439376871d2e640f508e73e6fd2e64028c9a9"; "586dd2e64009f572d468d2e64079d9a2cc6649e640452b03a4bdd4d1406ffd8fa1c2a3b240287acaf50a84a6403fd648354f969b407a55706ed48c90401c3ff6a6d947834004aa0ed9e15c77404ba0eb"; "59bf926e4052b83f8e110b564064de6d2176d441403da3150277e33640e97f5be8136f31403258d4e10df92f40c306db8720fee43f3b2b7c7cca27e03fdab3c22ff732c43ff7ddec1bf799e43fd8c526"; "8f8612c03ff86fefd6f78bc83fe91ae52ac08aa93f2fae16902390a03f5238e7bf7c90d540fe023bc86d90d5404f4c049861e5b9405d6616b38324b940916c53a59ebda340e3cd889d9ad095402c27d1"; "ea3f7588404cfea29e94c67b402e7b012c7bf06b403948c8f92e0f4f408d0a0596ff7f4440b3b3008be5df3c4000f0c68f7ee0314072f6155728970b4029bc2c656f0c0c402d0e9690f06b0c40276b8a"; "21e74400408b056e19a4ddf23f85e705e5f224bf3f3e957e204dc1b53f"];
["504b0304140000000000000021002392040f88000000880000000b001400765f6e756d5f732e6e70790100100088000000000000008800000000000000934e554d5059010076007b276465736372273a"; "20273c6938272c2027666f727472616e5f6f72646572273a2046616c73652c20277368617065273a2028292c207d20202020202020202020202020202020202020202020202020202020202020202020"; "202020202020202020202020202020202020202020202020202020200a1e00000000000000"];
["504b030414000000000000002100eb8ec49e88000000880000000b001400765f6e756d5f702e6e70790100100088000000000000008800000000000000934e554d5059010076007b276465736372273a"; "20273c6938272c2027666f727472616e5f6f72646572273a2046616c73652c20277368617065273a2028292c207d20202020202020202020202020202020202020202020202020202020202020202020"; "202020202020202020202020202020202020202020202020202020200a1400000000000000"];
["504b030414000000000000002100ffa7806710020000100200000c001400765f636f656666732e6e70790100100010020000000000001002000000000000934e554d5059010076007b27646573637227"; "3a20273c6638272c2027666f727472616e5f6f72646572273a2046616c73652c20277368617065273a202835302c292c207d202020202020202020202020202020202020202020202020202020202020"; "20202020202020202020202020202020202020202020202020202020200a11ea2d819997713d0aaac4969997713d202de89d5052b73e511d239a26e23e3f7888da3eb097713d000000819997713d5e22"; "261bc597713dd92ff7889a97713d800f447b9a97713d0fc109e528544c3fe1db1e8ca91d963fe3394cc337c5aa3f18c15c6d46d2c23f11ea2d819997713dcbf7c9253a4a913f48256f48936edd3f439a"; "08b5d384e23f11ea2d819997713d88d4d4a2edeaf13fccfa6ad3743bff3f12528c0215c0f63f9131ae7be1f1fc3f11ea2d819997713deada00e68934d93faa1aff955739e33f6a098057a397713d199c"; "916c954ef03fed51ec49168be93f121902c3bc6bc43f8cc375ca0c3d783f739133c93595363f2a9dd231abc2453f11ea2d819997713d057a14ee9d97713d3a55e63eefb6993f8d5d7fb3e20bc53f12ab"; "f3733678c63ff7ac56f89a97713d02b6e9a975fdb13f69509c5fbae6a13f592367ff3acbdc3f5eb2bbd7455ed63f549afd846d81e63ff0c244b2cdf7f03f0919dfc0a682014075aec0ffcd3c0240060a"; "7998530c01407470d3ccb188ff3fdaaf0f593f7ee23fca8173bf8196d03f"];
["504b030414000000000000002100c03f027f10020000100200000a001400765f657870732e6e70790100100010020000000000001002000000000000934e554d5059010076007b276465736372273a20"; "273c6638272c2027666f727472616e5f6f72646572273a2046616c73652c20277368617065273a202835302c292c207d2020202020202020202020202020202020202020202020202020202020202020"; "2020202020202020202020202020202020202020202020202020200a56422481e3933c41a3592d35e2933c41808c697fe1933c41063c84facebdeb40119a478fc3bdeb40c70dd426c2bdeb4075e118b7"; "c0bdeb40bef9c114bbbdeb404e06c6ce4ab9d4407d39d52ed76cd4403054ebc3b941b54022eb60baf843a54076e92c4858ec9b405d8611a6c5df9040e15b55442bcf8340efa7dd8aa9e67740334103b1"; "e43c6f40f1e59da60d535440655e6b469b9242401f3437e062db37400abfc5cdc7213340f53fb77474403140879dad2dbd5bee3f515591f725ace23fc7b685274eb1e23f56c4fa4bf309e73f3349f579"; "93ffcb3f58d3358ab194c73f6f45efec9e03ad3f949b0f50c180a23ff79d66fc7b83d840696e1e8f6b83d8403cba273489d7bd409d2746253996bb404cef0bb25c13a540dd37ba9cf0fb95402a342c72"; "f10689409b6b639de53f7c401149c24b47536b407b5259f3924f5040d8d3a927d7cc4640dc2765d5c69e3c4062658b113983324000e454c5004f10404ec03b61ef29104019038f4ad8b2014071c7a6cf"; "b9c40340cec7711cac7bf53f4e83afebd47ac33f0be5f9d6627eb93f"];
["504b0304140000000000000021002392040f88000000880000000c00140063725f6e756d5f732e6e70790100100088000000000000008800000000000000934e554d5059010076007b27646573637227"; "3a20273c6938272c2027666f727472616e5f6f72646572273a2046616c73652c20277368617065273a2028292c207d202020202020202020202020202020202020202020202020202020202020202020"; "20202020202020202020202020202020202020202020202020202020200a1e00000000000000"];
["504b030414000000000000002100eb8ec49e88000000880000000c00140063725f6e756d5f702e6e70790100100088000000000000008800000000000000934e554d5059010076007b27646573637227"; "3a20273c6938272c2027666f727472616e5f6f72646572273a2046616c73652c20277368617065273a2028292c207d202020202020202020202020202020202020202020202020202020202020202020"; "20202020202020202020202020202020202020202020202020202020200a1400000000000000"];
["504b0304140000000000000021000103b7d810020000100200000d00140063725f636f656666732e6e70790100100010020000000000001002000000000000934e554d5059010076007b276465736372"; "273a20273c6638272c2027666f727472616e5f6f72646572273a2046616c73652c20277368617065273a202835302c292c207d2020202020202020202020202020202020202020202020202020202020"; "2020202020202020202020202020202020202020202020202020202020200af8218219628cc33e3e68fd56139cf53e11ea2d819997713d3ecfd9b99997713de9bd360a9a97713d11ea79899997713d11"; "ea2d819997713dabf0dd27a6b7283f2b5d72809b97713db7cdfb35efe5583f2aa2f2b01b7c963f2daef51d98d8ac3fc0c1c0683e4fc73f70da85e3c497713d11ea2d819997713dc3f0566ea23fde3fa6"; "9ace01d6bee13fc685158641a0c33f7ad0c635efceee3f60700f37e869fa3fc898d7e7647bf63f32c16c3e4292014011ea2d819997713df0661a6167ade43fbfa89fed66d9f13f9ae3b11cd345e83fe9"; "a5dcaec76fd23fba3e3dba3f7ce73ff373c50d34f2e13f12d3a366ec887c3fbe25cf95fd271b3fd27ddb059c97713d06b0a2dfb2c2443f11ea2d819997713d3807a41e9d97713d9dfc31258cee943f39"; "3c7a5eec54c73f44d600b13740c93fd64ceb909e97713dfe48f7d6c18aa13f9401252b148bc43f6b31bcff62b5e33f27be042c5b64d43f731c3a8a67f6d73fc8ab6ce07242f03fddef86be2ae20040ae"; "51d1a46b8711407d67d0c6d0380340110704931406d83f5b0d2ab91edba43f"];
["504b0304140000000000000021009305822d10020000100200000b00140063725f657870732e6e70790100100010020000000000001002000000000000934e554d5059010076007b276465736372273a"; "20273c6638272c2027666f727472616e5f6f72646572273a2046616c73652c20277368617065273a202835302c292c207d20202020202020202020202020202020202020202020202020202020202020"; "202020202020202020202020202020202020202020202020202020200a899ce98e635e114146fb6f3b635e1141123cbb8bc700f34080c0a08904d4f2408c82e5b70eccf240f0a7d9c879c6f24064162c"; "63ccbdf240b372a28cc17af240b4730832abffd440e98cdcef95bcd44064bea7a3a89ab64024f97339804ca540927b87fd72679c40fb119d39eb229140348a8a15cc4784409a146191265b7840a6be53"; "6aa0736f40ab757a5b383152409ce22e1c9dec42407375d0d7ba8f39404984d4ba61143540bc86db6ec67631404895776518aeec3fad65b191068ce43f047481ba632de53f671d06a77364e63fddffc6"; "6086bbce3f00bee1455b7cc43f3404f8dbd064b73f8e4779f9de33a33f5df896e3186cf640fde0458fb2fad940dacea53468fad94067de3a28f9d9bf40e31b978d1e14bb402a985ba41566a54037d7dc"; "6159309640f9980087a0768940d25bb83cec747c40c86e246cbf566a4057af45843aae514002b3363a75de474063c7bc2e22433e405a70bf3de5ae354083bcbb907f3912406b5b06c70ac81240376453"; "59d4b805402832d1593551f93fce46a3bce0e8da3f04d09b3a63deb03f"];
["504b0304140000000000000021002392040f88000000880000000c0014006d6e5f6e756d5f732e6e70790100100088000000000000008800000000000000934e554d5059010076007b27646573637227"; "3a20273c6938272c2027666f727472616e5f6f72646572273a2046616c73652c20277368617065273a2028292c207d202020202020202020202020202020202020202020202020202020202020202020"; "20202020202020202020202020202020202020202020202020202020200a1e00000000000000"];
["504b030414000000000000002100eb8ec49e88000000880000000c0014006d6e5f6e756d5f702e6e70790100100088000000000000008800000000000000934e554d5059010076007b27646573637227"; "3a20273c6938272c2027666f727472616e5f6f72646572273a2046616c73652c20277368617065273a2028292c207d202020202020202020202020202020202020202020202020202020202020202020"; "20202020202020202020202020202020202020202020202020202020200a1400000000000000"];
["504b03041400000000000000210049fd616c10020000100200000d0014006d6e5f636f656666732e6e70790100100010020000000000001002000000000000934e554d5059010076007b276465736372"; "273a20273c6638272c2027666f727472616e5f6f72646572273a2046616c73652c20277368617065273a202835302c292c207d2020202020202020202020202020202020202020202020202020202020"; "2020202020202020202020202020202020202020202020202020202020200a5cda73192850703e324d0cd08361b23e11ea2d819997713d11ea8e1ca997713df0dbc0e0c11a423f116a00f8a197713d11"; "ea2d819997713d11ea96639d97713d304ef782e908413f1250a0211e659a3f112aec5fa397713d5717a9e4ec1f913f8be1782d997bcc3f5719062e6997b83f11ea2d819997713dc390f9ef0237e13ff6"; "515f6033efdd3faaa4e28c29f9243f9cbe47587f07fc3f7ae09a791743ff3fbe4f486c123d0440d87956118fd4763f7302fbcbf31dba3fba868c6c7d26ee3f106ff277e104ea3f4e7efb68f217b83f0e"; "0a5c746e0fe93f1284a256a48afa3f3fdba74ba0a6cb3ff68e924efeb2833f000000e39b97713d229de0089b28543f116af18e9b97713d11ea2d819997713d265f1e29d8e5893f11ea2d819997713da8"; "d0d29a7380c23ffe0dfd9485f9c83f11ea2d819997713d7ea1a4f184b8823f5061f029aacac93f9a2a4a9f65f6d83f54c55edb246acb3f3174f4372414e93f089dce2111d2f13fd23f55e4df38004029"; "a809080d401140c393c48c4448fc3fcb566df34ddff43f694c5e9275c8d23f"];
["504b0304140000000000000021001442281b10020000100200000b0014006d6e5f657870732e6e70790100100010020000000000001002000000000000934e554d5059010076007b276465736372273a"; "20273c6638272c2027666f727472616e5f6f72646572273a2046616c73652c20277368617065273a202835302c292c207d20202020202020202020202020202020202020202020202020202020202020"; "202020202020202020202020202020202020202020202020202020200a2dfc7d85526f4341c2784b75526f43411806ded45e28f040b5470f945e28f040f23de77e5e28f04074514e6d5e28f040762078"; "4a5e28f040c6f67ab65728f040581587c43adbd9404f2468126978b840af5af41fd901b640ea71cd72f8c3a840297e1e3ef3de9c40480ce00df3129140ee8719481aa884406f8669b11d7b7840d26a98"; "f7f2f96e40624c162ec1ae504014b65dbc3fe84240a4580b97e6b53a409019f8239b6f3640e19f7e7b57c60e406b3833597b28e73f7ae101e11761eb3fd2e7af9a77f8e73f9a8410c7a74c0440bc56ab"; "d0c1a6d43f8814b458b804c53f3db97d6f9a20b13fcd9ca2260e64a53f56756c988d22de40086bf4d78c22de403fa8167cbb1ec140cbbf2c2de01dc14093523fa5a68fad40efd9d9a08482a44069e6de"; "0a4def954016142d4cb1c2894000d051371d377c4079907198644d6840b37119390fb5524071241c4e6b3d4840cf6af1d8c7be3d40f247bf18fc32364026df9462cb701440e06a42c16cac15406cb2c3"; "7ec77b094023a44af6c0c60040573505c0181bfa3f2d9ca76018e5be3f"];
["504b030414000000000000002100bd92aec388000000880000000c00140066655f6e756d5f732e6e70790100100088000000000000008800000000000000934e554d5059010076007b27646573637227"; "3a20273c6938272c2027666f727472616e5f6f72646572273a2046616c73652c20277368617065273a2028292c207d202020202020202020202020202020202020202020202020202020202020202020"; "20202020202020202020202020202020202020202020202020202020200a1f00000000000000"];
["504b030414000000000000002100eb8ec49e88000000880000000c00140066655f6e756d5f702e6e70790100100088000000000000008800000000000000934e554d5059010076007b27646573637227"; "3a20273c6938272c2027666f727472616e5f6f72646572273a2046616c73652c20277368617065273a2028292c207d202020202020202020202020202020202020202020202020202020202020202020"; "20202020202020202020202020202020202020202020202020202020200a1400000000000000"];
["504b030414000000000000002100d844598818020000180200000d00140066655f636f656666732e6e70790100100018020000000000001802000000000000934e554d5059010076007b276465736372"; "273a20273c6638272c2027666f727472616e5f6f72646572273a2046616c73652c20277368617065273a202835312c292c207d2020202020202020202020202020202020202020202020202020202020"; "2020202020202020202020202020202020202020202020202020202020200a00001e829997713d8cf889f7988b983eea1d8b01fd3eb13e11aa75b89997713db9b718649f97713d11ea2d819997713d44"; "ad9679a597713d342c63619dd7443f11ea2d819997713d2c52026ea277423f22e8ee1cf4b49d3f113a70499c97713df59e4d43505d923fbf15ee90fddbce3ff0d72b274c61c13fd6e0d83c1342143f92"; "21a3e07869e03ff425f22c1e42d53f4c35a836bfcdca3f2aa36f6c094fff3f6074ef991183f33f22ffc8ce525e054091ec20ec4677cc3f3860667dd8d8e53ffe2cdd64b244f63f5d3b3bf6ea09f23f0c"; "b9e3b255c7e23f5e0efb3dc656f13f97fdb16210aade3fd4d050592985b33fc8d4cb921a94633f11ea2d819997713d475826187db0573f11ea2d819997713d112afde99a97713ddf9cf8556a87893f11"; "ea2d819997713d701890fd8093c33f86c196c6cff4cc3fced99a15074fb13f78cbd4869a97713d972572b50e4ace3f554b0c3fdc33e23f6a745af39c97713d194642c8bc33ec3f70b5ac818971fa3f38"; "be7be95c65f83fdcc3f4b16436114053fc069ec4360340c0538f3debbce13fd2e7e2b96eeedb3f"];
["504b030414000000000000002100fa77053618020000180200000b00140066655f657870732e6e70790100100018020000000000001802000000000000934e554d5059010076007b276465736372273a"; "20273c6638272c2027666f727472616e5f6f72646572273a2046616c73652c20277368617065273a202835312c292c207d20202020202020202020202020202020202020202020202020202020202020"; "202020202020202020202020202020202020202020202020202020200a95bd8d13669e4241cd153508669e424108a5fdfd659e42419621975bf173f0403a9d8a0df173f040145721f4f073f0407f372a"; "dff073f040bdfd54b5f073f040b48183f0e773f040572080c23c5cda400a993e8cfe9ab840ae382af7b950b640768db77ae7d4a840b219e60483759d40dcb262f1fc3d9140d2a9bf8bdb0885407b9bb2"; "403ffb7840a962a24cfe066e4082ccbbddb4765040cf7f41c64b5043407be8d9e57df73b4050f5977bfd3f38403be5aeabbb290b4095a14ca118f3f23f69a00cb2ed25e83f055193b0f40fef3fe08796"; "c391fe0240529d0881d4b7c23fa38eb22fe260b73f1b21f14c7370ae3f5d34f3102bdaa33f6556a94eb6bade40b9f57638b5bade40a4c45c8a7d77c14049f7ea5d4476c1407499ca7de38cad40f803c7"; "42e5b2a440e0a8287b790796409bd31da0c3108a40d12093ac67a77b407920ae50765c6640eb185cb7cbea534063fa12f1b6c74940221c9f4e05583f40d712eb9a627f3a40585e0d839a91174000ce2b"; "e3f6e31640afad7c1b149a0b40f09f53c281750040cca47da42c31e03f706145fc01cdd23f"];
["504b030414000000000000002100bd92aec388000000880000000c001400636f5f6e756d5f732e6e70790100100088000000000000008800000000000000934e554d5059010076007b27646573637227"; "3a20273c6938272c2027666f727472616e5f6f72646572273a2046616c73652c20277368617065273a2028292c207d202020202020202020202020202020202020202020202020202020202020202020"; "20202020202020202020202020202020202020202020202020202020200a1f00000000000000"];
["504b030414000000000000002100eb8ec49e88000000880000000c001400636f5f6e756d5f702e6e70790100100088000000000000008800000000000000934e554d5059010076007b27646573637227"; "3a20273c6938272c2027666f727472616e5f6f72646572273a2046616c73652c20277368617065273a2028292c207d202020202020202020202020202020202020202020202020202020202020202020"; "20202020202020202020202020202020202020202020202020202020200a1400000000000000"];
["504b030414000000000000002100794087ce18020000180200000d001400636f5f636f656666732e6e70790100100018020000000000001802000000000000934e554d5059010076007b276465736372"; "273a20273c6638272c2027666f727472616e5f6f72646572273a2046616c73652c20277368617065273a202835312c292c207d2020202020202020202020202020202020202020202020202020202020"; "2020202020202020202020202020202020202020202020202020202020200a169788c39682793e8d3a3d9047ca9e3ed6271d882905a13e11ea2d819997713d0000ae7ba997713d11ea2d819997713d47"; "8c3cf24be2423f11ea2d819997713dce274f00815b0a3f81a0751c8e643c3ff1fa4fe97374a13fbe922d32631b793f21eb2611b097713dc189eeea76a6cd3fd95ed56e3355c23fc6891481bc64cd3f45"; "a2a6052804dc3fe6c59b01b207c33f3f2e7e1b3b0cf53f952dc1ba6d33ed3fe6599c09943be83fe6c8079d3966f53ffdc18ee3f85ce73ff3d121d4da84d43fbd73849e93b3ed3fe193a0e1bed6f93fed"; "d89890249ff63f4e057f92eccaf23f728ac911cc66f03f592acbc836ff9d3f8ae4f382618b303fff960297ed2e463f2c67c5a949c14b3f156fdcb8a497713d11ea2d819997713d6748f4d50f5b973f11"; "ea2d819997713dca23f1ba9138be3fe30ef4e90c0ac63fa50c9c3cf20ec63f4d57fc8c9a97713dc3e2a2fd164fd13fedeb61d5cbfbf63fcfbc08d972aba63f2d8e759875dcf93fc8a70849f2dc0340d1"; "d0609c8fbf0040b0fe79fb24a50c40b3e996a3b114fc3fd374230f3d80d63f87286d501e11b73f"];
["504b03041400000000000000210091224c5c18020000180200000b001400636f5f657870732e6e70790100100018020000000000001802000000000000934e554d5059010076007b276465736372273a"; "20273c6638272c2027666f727472616e5f6f72646572273a2046616c73652c20277368617065273a202835312c292c207d20202020202020202020202020202020202020202020202020202020202020"; "202020202020202020202020202020202020202020202020202020200ace0eebdc11cf47414f2dcad211cf4741340d99c911cf4741846614b84d98f240ed4717954d98f240bb5f74894d98f240682f48"; "7f4d98f240ecff3d694d98f240925951353798f240ca28388834b7dd40355fb570417fb940e65b5c808430b6402b307231307fa8405e5b576ee7ed9d404887a3aeb86991405c42ba3f566185406f3d5e"; "6bf0b77940d32a4adf266c6b4026d14f78d79850401204633a95fe4340f195f735a3c03d40a9bf668e294d3b40ee1247c66cab0d40ddfb5ba7d83802405835b06f8242fd3fe8dfb79798b1f13f165342"; "239c15e73facfa7d892c88cb3f5869c97f72adbf3f97dafda89471ab3fcb6a6ad0790ba13fd7d50c245265e1402fd5f8f45165e140057ec8aca6a7c3409627d61900a4c340782e00bf2900b040af83ff"; "5dc71fa540716f626ce95d9640823b530236338a40bc2d17b36fda7a4049b11be51c836240ae68d8a57a3a5440f06479c3a2bd4a40bf9ac1e081b84040deb60501d88e3e407d256be926721a404466bc"; "eb7a1e1340dd49e0352eb70a4010cc3ac38f5800406e8d43e66dddde3fdf320f8ee666b73f"];
["504b0304140000000000000021002392040f88000000880000000c0014006e695f6e756d5f732e6e70790100100088000000000000008800000000000000934e554d5059010076007b27646573637227"; "3a20273c6938272c2027666f727472616e5f6f72646572273a2046616c73652c20277368617065273a2028292c207d202020202020202020202020202020202020202020202020202020202020202020"; "20202020202020202020202020202020202020202020202020202020200a1e00000000000000"];
["504b030414000000000000002100eb8ec49e88000000880000000c0014006e695f6e756d5f702e6e70790100100088000000000000008800000000000000934e554d5059010076007b27646573637227"; "3a20273c6938272c2027666f727472616e5f6f72646572273a2046616c73652c20277368617065273a2028292c207d202020202020202020202020202020202020202020202020202020202020202020"; "20202020202020202020202020202020202020202020202020202020200a1400000000000000"];
["504b030414000000000000002100f62aca8e10020000100200000d0014006e695f636f656666732e6e70790100100010020000000000001002000000000000934e554d5059010076007b276465736372"; "273a20273c6638272c2027666f727472616e5f6f72646572273a2046616c73652c20277368617065273a202835302c292c207d2020202020202020202020202020202020202020202020202020202020"; "2020202020202020202020202020202020202020202020202020202020200aea5a0d87843ea03e016b82e26613c93d183f513d071ea63e6c0d00ab149c593ea7536bf03674463f63551626ac98713d31"; "55fc829997713d0dbdec389f97713d27a799174ae3f73d22a4c581cd923d3f3165f1c73f01a73fbe806241c797713d7ce4e8829997713d1745aa81c831d13f1b6dcabd55c0c93fca4c0e4f9c97713d21"; "3d56c8a74ddf3fc8ba30b8df2dd63fb69758c57691e73ff375c7561f07d53f84bd15dd946be33f88b18a686b9b00407bf1ce35eb11c53f49e885562470f13f7b31b13e4aa9fa3fe3d692b2d808f93f95"; "9e9dba32b302401c6c906f4e1dfb3f633fd40ef82bd13fcd46a1f20b208c3f935f22a2464e5b3fafd0635e7599713dd5a314c29b97713d11ea2d819997713d30b3550dc1539d3f94a602d1a897713dc0"; "24c8ff6c2fc43fa79d695ee90dd13f8903b0e7f3ccc03f7664f6646f81d13f9ea9f95e6072eb3fdcb808b115aff83f43fc7ff8e741f13f7ba91112bfd3e93ff63a816f522202403871657e8789084090"; "859c6f4f4bfb3f1734ba27ee11f23f3235107b9a6cdc3fe6cfe283c6e6d53f"];
["504b030414000000000000002100eba94ed310020000100200000b0014006e695f657870732e6e70790100100010020000000000001002000000000000934e554d5059010076007b276465736372273a"; "20273c6638272c2027666f727472616e5f6f72646572273a2046616c73652c20277368617065273a202835302c292c207d20202020202020202020202020202020202020202020202020202020202020"; "202020202020202020202020202020202020202020202020202020200ab15df0b2eeb64841293332abeeb648411c9a6ca4eeb648413cd515b99633f3402085259f9633f3403155c4969633f340afc654"; "8f9633f34093883d7f9633f340c55b27947733f340472223f362bcde40e9a40904b8d8b940c492ddb6f0f3b5404ac4b6173c97a8400fe9ff0ce33d9e40eff51c72b9b09140e5f5670799d985407b83aa"; "b686887a40511b450bf315694070a4483b4fea5040a738b059b95844400edb2fcf21c13e400eefb07e31093b40a635278e15730e40af3d5daf555c01407efb60526b68f93f393b9dc1c0dbfa3f494361"; "584e6dec3ff7b2004be09ecb3f0d7b53fe5913b53fc055967527b4a93f424e420959fee1409eb9def358fee140449156a3b661c440848f72ec0c5ec4404ad982157476b0407285f3a7ee73a540ac95c8"; "d94cc69640ffeb33d2c3a78a4061e9cc1865337b408d75a9ffe9eb60404a928b8ea69554407c48f5043cd24a409b9c53b2f7a74040f2fbeea2e1b71d40bc429201ae891c407fcf143b6a371240700a77"; "531df50c4062131109472504407daac1412889e13fc3305ac8e4c9c33f"];
["504b0304140000000000000021002392040f88000000880000000c00140063755f6e756d5f732e6e70790100100088000000000000008800000000000000934e554d5059010076007b27646573637227"; "3a20273c6938272c2027666f727472616e5f6f72646572273a2046616c73652c20277368617065273a2028292c207d202020202020202020202020202020202020202020202020202020202020202020"; "20202020202020202020202020202020202020202020202020202020200a1e00000000000000"];
["504b030414000000000000002100eb8ec49e88000000880000000c00140063755f6e756d5f702e6e70790100100088000000000000008800000000000000934e554d5059010076007b27646573637227"; "3a20273c6938272c2027666f727472616e5f6f72646572273a2046616c73652c20277368617065273a2028292c207d202020202020202020202020202020202020202020202020202020202020202020"; "20202020202020202020202020202020202020202020202020202020200a1400000000000000"];
["504b0304140000000000000021009a9cde1e10020000100200000d00140063755f636f656666732e6e70790100100010020000000000001002000000000000934e554d5059010076007b276465736372"; "273a20273c6638272c2027666f727472616e5f6f72646572273a2046616c73652c20277368617065273a202835302c292c207d2020202020202020202020202020202020202020202020202020202020"; "2020202020202020202020202020202020202020202020202020202020200ab7afd84db216a33e81f7ac80abe0a53e0000f8a09997713d0c9227dcd597713d000040819997713d11ea2d819997713dd3"; "a2b459a997713df333298355be463f11ea3ee9a797713d076a294718ef3e3fb69ec97dc21ba53f5a73c05ac12f7b3f11ea2d819997713d94927c92dea2d23fb0ea4b2f0b65c83f26eaecabf9cd9d3fe6"; "3d595f2cd6df3ff08c267cd694d33fc51072c0ac67e83f722a3dda5424e43f755e95b95ab2ed3f29dd8aed7b590040383df8f26654c63f184ae78ab8b3f73f07bea40c808700405e24a90a27fafb3fbf"; "f0a24e7c2cff3f79e1d3462a38eb3f3b444efcf7d7bd3f3c6581d4e37a763f1c8d998f74f8e23e5541e4b1252b5b3ffaa087309b97713d11ea2d819997713d7c3093461e5c9f3f11ea2d819997713d05"; "df34afde59c53fc068a174f374d03f8ea8e13135a0bf3f70fac7a53460ce3f7bf6ad3c08acea3f43a334183381f43fc0f2c200588fe93f548ce03a1bbaf23ff0beb29061ab0040a5173c4e6d19114076"; "14b69133aa01408e059a38e14fed3fc624cc3e2802d63f5009db0213a5c33f"];
["504b030414000000000000002100dfbdaca110020000100200000b00140063755f657870732e6e70790100100010020000000000001002000000000000934e554d5059010076007b276465736372273a"; "20273c6638272c2027666f727472616e5f6f72646572273a2046616c73652c20277368617065273a202835302c292c207d20202020202020202020202020202020202020202020202020202020202020"; "202020202020202020202020202020202020202020202020202020200a6dc8ce4ce069494154217941e0694941d6c82d38e069494164ba2a3edd62f4403c6ae618dd62f440b9fd790ddd62f4408f2e53"; "03dd62f4404391e1ebdc62f440539590bba661f44093503cd33e45e0400b0cde5d19e5bb40c2b8982dd0feb5405f835e106d38a940203108f920df9e40c146a8658616924043aff2a0446d8640424a8e"; "804b247b4049ac37890b676740c9f4134f66685140cf4b93f4a88a4540e3350529f79140404eb01ee8d1263b4027f1562038010e40af8cb4e142040640c26f8a01e1fbf83ff3e691072776fb3f7aadae"; "9024bbe33fc3adc145aa7ac53f6c61365e63e5b03f22b0a3350007a53f005de613b223e340c2db92efb123e340da97eafccac3c540b11e900516bbc54047039bb11c5ab1406c7e8b00c5a9a540b2a8c4"; "52fa3b974080932412e5308b40076f210eb0d17b407f3227aaa6e460400d3abf0b048c5540649dd6dce7094c405f74d154758342401b241f9e1c25214093364f87f8391e40efe1106f28f11240fb986b"; "e2e48c06400814d86c86a8f53fc068189f87dad93f8af0a44b94e6be3f"];
["504b0304140000000000000021002392040f88000000880000000c0014007a6e5f6e756d5f732e6e70790100100088000000000000008800000000000000934e554d5059010076007b27646573637227"; "3a20273c6938272c2027666f727472616e5f6f72646572273a2046616c73652c20277368617065273a2028292c207d202020202020202020202020202020202020202020202020202020202020202020"; "20202020202020202020202020202020202020202020202020202020200a1e00000000000000"];
["504b030414000000000000002100758e6e5288000000880000000c0014007a6e5f6e756d5f702e6e70790100100088000000000000008800000000000000934e554d5059010076007b27646573637227"; "3a20273c6938272c2027666f727472616e5f6f72646572273a2046616c73652c20277368617065273a2028292c207d202020202020202020202020202020202020202020202020202020202020202020"; "20202020202020202020202020202020202020202020202020202020200a1500000000000000"];
["504b0304140000000000000021006c5111ca18020000180200000d0014007a6e5f636f656666732e6e70790100100018020000000000001802000000000000934e554d5059010076007b276465736372"; "273a20273c6638272c2027666f727472616e5f6f72646572273a2046616c73652c20277368617065273a202835312c292c207d2020202020202020202020202020202020202020202020202020202020"; "2020202020202020202020202020202020202020202020202020202020200a11ea2d819997713d380f7cc79997713d11ea2d819997713d4e0988869a97713d11ea2d819997713db591939b8b1e103f11"; "ea2d819997713d1b4edad84e79193f11a1de369a97713d056efce306cb4a3fd4b114f3bdbab03f3fb63d272649413f7e61fa93a197713ddfc07124b158a53fe43b5dae6ec2e23f11ea2d819997713dbe"; "ff65370358e23fa9d3bc2b58c5cc3ff5560ac8fea1f03fa1db994e6075f03fd7396956b046f43f80aa62ed2415fa3f185887390c3c563f389aeb043e0bf13fd38cebbde9b4ff3f01ea5f82b3eef63f1f"; "85bdde69e0fb3fb3dcfe745594f73fab84fa643065c33f053c4f4c5087793fc86f1ac0418b323f881e75f5ff3a563f000040819997713d11ea2d819997713dd3354cdb9b97713da408cc97fda0ad3f05"; "e813cf76efa43f2352ca869b97713d6ece4e6f72facb3fe4af0e46af8ab53f2d1c4e15b3d2c23fb49fd2ba9a7de83f0f426d1aa369f03f0fcd61829433e83fc444658bdbf1fa3fa00a45f7250900405b"; "26b56e516a1340b5c9e1887947044076bbe34e572deb3f4c3dd549f6d3db3f63ee1987b619cd3f"];
["504b030414000000000000002100fa524ff518020000180200000b0014007a6e5f657870732e6e70790100100018020000000000001802000000000000934e554d5059010076007b276465736372273a"; "20273c6638272c2027666f727472616e5f6f72646572273a2046616c73652c20277368617065273a202835312c292c207d20202020202020202020202020202020202020202020202020202020202020"; "202020202020202020202020202020202020202020202020202020200a61ccdaa4b8f21641bd402b8faff216414e3776f5a1f21641b3b62b9588f21641e8148a6e4df21641066460be93ed164195b898"; "a91cee0041a68afcb3afba0041a76a84839b12e2405742429d7011e2405214cf7b0381bc409c8dadf823e1b24041ddd76a9f35a9409524bd96a9169f4084b61a065c5d924073e1c36061d38640b8889f"; "007abf7b401f7a14f96e3b654047f6d7349dcc5140e8fd292ce4e346401854e903400f4240561d954eb06d3a40c72daf8226da0c4055512ed24e0404401c22f32f7c2df93f9800505b1ea50240612295"; "55781ee63ffa364a376624c93fd1dd431f5f71b43fc1782ff50393a93f2d1621563eab0341c89d4770ea1ae640423e675dea1ae640fe617b033b82c840b1a42160b07ac840a8933c51dbb5b240cf2715"; "65eab7a540c0cfffc373b9974055eedbd806808b40e586390ed5d47b4090591d9b36d16040d51317f8b34f564052d49a02a29c4c407458c9d26167444017df742e164123404f3c6006ab152040040020"; "8ed1d7144078b60428ffee08409e771c86731afa3faee9bf11ce70dc3fc4643e9c2657c23f"];
["504b0304140000000000000021002392040f88000000880000000c00140067615f6e756d5f732e6e70790100100088000000000000008800000000000000934e554d5059010076007b27646573637227"; "3a20273c6938272c2027666f727472616e5f6f72646572273a2046616c73652c20277368617065273a2028292c207d202020202020202020202020202020202020202020202020202020202020202020"; "20202020202020202020202020202020202020202020202020202020200a1e00000000000000"];
["504b0304140000000000000021009689e1dc88000000880000000c00140067615f6e756d5f702e6e70790100100088000000000000008800000000000000934e554d5059010076007b27646573637227"; "3a20273c6938272c2027666f727472616e5f6f72646572273a2046616c73652c20277368617065273a2028292c207d202020202020202020202020202020202020202020202020202020202020202020"; "20202020202020202020202020202020202020202020202020202020200a1600000000000000"];
["504b0304140000000000000021004f88afe420020000200200000d00140067615f636f656666732e6e70790100100020020000000000002002000000000000934e554d5059010076007b276465736372"; "273a20273c6638272c2027666f727472616e5f6f72646572273a2046616c73652c20277368617065273a202835322c292c207d2020202020202020202020202020202020202020202020202020202020"; "2020202020202020202020202020202020202020202020202020202020200a68cdb807ae09993e80dd094f34f3a13e05f8f1fc0569713e11ea2d819997713d089fe65b9a31443f111ab3d49d97713d11"; "e2e6c8d697713d11ea2d819997713d11ea2d819997713d2b8878060111463fac1d061c7918ae3ffbd085f52d0eb33f115ac2d79997713d11ea2d819997713dc6b29429d5abb83f85d3d980cc3bcc3fc9"; "d60a904daee33f34faa06a8b6cad3f734968def38ff33fd533ddb16e5bff3f218db18842620440a3dc88b3234f8c3f4727e0be2f54f43fed5409ef5a4ffe3ff9ebda4f11e0ff3f5f187f02588af73f0b"; "1b7355df3a0140a9b960264fd7f73fc3cbd2937af8ef3f86e3bb88c6eca93f11ea2d819997713d2903837154d8593f11ea2d819997713d1122f3ff9a97713de9481ff39eb4b53f26292bcd3ba4c63ff5"; "a12170825bca3f31b7c7bbe199bc3fed258dd03e4f9d3f11d2b8339a97713dd3a65c90d419e23f9ef9fcd55d66d13f122b82971256ee3f69bd116cee7cf33fb869bbfb827e0140475df9a7296c0d405b"; "cce6a88d7df93f07bade9c0628e33f48d5edbd98e0e03f967a7f1ed94ce03fc7dc7a335165ba3f74f7e7130230413f"];
["504b030414000000000000002100bcafee5f20020000200200000b00140067615f657870732e6e70790100100020020000000000002002000000000000934e554d5059010076007b276465736372273a"; "20273c6638272c2027666f727472616e5f6f72646572273a2046616c73652c20277368617065273a202835322c292c207d20202020202020202020202020202020202020202020202020202020202020"; "202020202020202020202020202020202020202020202020202020200a1bf0a743bf2551414f43a43fbf25514160b2b53cbf2551414503a8e3e64bf84070d265dee64bf84044fe04dde64bf84097cd14"; "dce64bf840c899f7d7e64bf840fc2155aeb588e2408458f08a717de2402875e6dc8c6abe40538af1bda970b3401b07850952b8a9408e85a3397b9f9f40186e6fa6a7ab924025744236921987409c4cad"; "02e73d7c40c7eac32b38176340eb01f2fd43f551407a66ee558ddc4740babf0414fc514340cc333c042daf26407e22cb690596114024dc3798aa1f0d409297cb62eea004402c2daccdddf7f93fbff0b4"; "7d6128fb3fbb24ec318195cd3f02ed02d5f974c03feacfef325357a93f5d115583edd9e540f4967e7cedd9e540cd352ba447e3c840a6211948cfd8c840fa4512acacf4b2400385d822a7d4a5401467eb"; "111ffb9740e1ea6cdaa49f8b40d78fc0e720027b40a26fbd7bb6d96040a0deaeae72bf5640201b31ce82884c405d5846dae3a84440ce4cd6a8452122404a643e78bd022240e1c46fe079761540bc6d00"; "b5b9800940eb068f2d0161f43f109dc377209ee93f4911be5a800bdf3fc6b8ba99ab6bb73fb88338d52f44a13f"];
["504b0304140000000000000021002392040f88000000880000000c00140067655f6e756d5f732e6e70790100100088000000000000008800000000000000934e554d5059010076007b27646573637227"; "3a20273c6938272c2027666f727472616e5f6f72646572273a2046616c73652c20277368617065273a2028292c207d202020202020202020202020202020202020202020202020202020202020202020"; "20202020202020202020202020202020202020202020202020202020200a1e00000000000000"];
["504b0304140000000000000021009689e1dc88000000880000000c00140067655f6e756d5f702e6e70790100100088000000000000008800000000000000934e554d5059010076007b27646573637227"; "3a20273c6938272c2027666f727472616e5f6f72646572273a2046616c73652c20277368617065273a2028292c207d202020202020202020202020202020202020202020202020202020202020202020"; "20202020202020202020202020202020202020202020202020202020200a1600000000000000"];
["504b030414000000000000002100fd91975320020000200200000d00140067655f636f656666732e6e70790100100020020000000000002002000000000000934e554d5059010076007b276465736372"; "273a20273c6638272c2027666f727472616e5f6f72646572273a2046616c73652c20277368617065273a202835322c292c207d2020202020202020202020202020202020202020202020202020202020"; "2020202020202020202020202020202020202020202020202020202020200a0000dc23619a713df7a4be2b1767a23e191967fde8e89e3ec58bab092e9d713d8d161b712dc0713d22f0f99ffd9d423f3b"; "800531cdc5713d9e375e521dc1713d9165affe6d99713d3e99a220bf82493f61396c803e88ab3f53d498201f4bb73f01f7c3cc5ea6713d11ea2d819997713d11ea2d819997713dbb74670a2659e03ff5"; "52d204f5f5e13f74bde6cfd6d3d63fa2c397719964ec3f9256f9c412cef43f1a6e0aad9aa50340ba937f8eae38c13f657ef0485fbcf83fbafe4498675b0140b79a438dff660040dd26073304d6fb3f10"; "ab1291e848d73f40a15130b5d6f53f7b51f547b78aeb3fb1376b12538cbd3f11ea2d819997713da15b29a4ad9d563f11ea2d819997713df92e3b169a97713d3ed8dd512982b53fdaabfc0eaf5ac83f01"; "be8cd14a3bc63f11ea2d819997713d6eebf35d8cc5a03f641394250940c53f19e571cd2365ef3f6521abdf2fa2e03f6d46bfd766b7ec3fad5c6b13af8d01409ce9ad8aac12fd3f28454723c2b90f405a"; "50450009ccf63fce9a0ea425d4ec3f8d38f570aa69ef3f4fdf70db5afaeb3fcfc990664477cd3f630726da6dd9553f"];
["504b03041400000000000000210012b5e4ff20020000200200000b00140067655f657870732e6e70790100100020020000000000002002000000000000934e554d5059010076007b276465736372273a"; "20273c6638272c2027666f727472616e5f6f72646572273a2046616c73652c20277368617065273a202835322c292c207d20202020202020202020202020202020202020202020202020202020202020"; "202020202020202020202020202020202020202020202020202020200add4f848d4b1e524111e149854b1e524132a9d27f4b1e524188dad36d6f21fa408808c85c6f21fa40f3eab9576f21fa409c8d9e"; "536f21fa40fa3314476f21fa40080ea27f0eb5e3401fa11b9520abe34025d918b8dab4c040e5d3ac2ca612b340f98305219c6faa40540937d90b1aa0403043a1513f1f9340c1bb3d66fd828740b8b849"; "d561d27c400ddc072714b161405c69f0c887445240884c1bbf60224940169879d7dd2a44402c370dea4975214057a48b48f51713402f3715f6176d0d40ff87775266fc04405b863194db30f43f1c610b"; "4b3836f13f3ef2bcb0460fc83f9fe5ef43c57acc3f55465ca89235b33faebee1dc6857e740ac85e2d86857e740ba09f1fe2e97ca400b873f28667eca40737a59e8aec5b3400aaf4dcef0c2a5405c3652"; "8d8e6298406e453cd2ddc58b407aa116c300057b40fda7f4c2f3f76140e44e6ee4496b574017df37abf7204e401dbbefa6517b4640ebbef9465ced244091c4b64581652140a210625a7ec316404576de"; "e9d5050c40ec974965f3e5054055bdf58bfa5fe73f98292686719cdb3f02873db0cbf3c13fdced4c0cf8b2a93f"];
["504b0304140000000000000021002392040f88000000880000000c00140061735f6e756d5f732e6e70790100100088000000000000008800000000000000934e554d5059010076007b27646573637227"; "3a20273c6938272c2027666f727472616e5f6f72646572273a2046616c73652c20277368617065273a2028292c207d202020202020202020202020202020202020202020202020202020202020202020"; "20202020202020202020202020202020202020202020202020202020200a1e00000000000000"];
["504b0304140000000000000021009689e1dc88000000880000000c00140061735f6e756d5f702e6e70790100100088000000000000008800000000000000934e554d5059010076007b27646573637227"; "3a20273c6938272c2027666f727472616e5f6f72646572273a2046616c73652c20277368617065273a2028292c207d202020202020202020202020202020202020202020202020202020202020202020"; "20202020202020202020202020202020202020202020202020202020200a1600000000000000"];
["504b0304140000000000000021002fdb253220020000200200000d00140061735f636f656666732e6e70790100100020020000000000002002000000000000934e554d5059010076007b276465736372"; "273a20273c6638272c2027666f727472616e5f6f72646572273a2046616c73652c20277368617065273a202835322c292c207d2020202020202020202020202020202020202020202020202020202020"; "2020202020202020202020202020202020202020202020202020202020200a11ea2d819997713d11ea2d819997713d6e9ffc1b01849e3e87914cf3a945873e0000008fb697713d51d6f31cea97713d11"; "ea2d819997713d000000819997713d0b0a309095f83c3f11ea2d819997713dd2729c07b1f84c3fc5f89a046051a33f4fc814e39d2ab53f567e0e90642aba3ffc11c96bbb97713d11ea2d819997713da6"; "67d529163fe03f79aed426454fe13f593f00fc4977e73f3ac5c9d807dceb3fb1d71916b1d7ef3fa67775752c66f73fb1a40830cbdcd13fd68794de0de4f93fbbc3e71ba2f6014009fb1537aedf00408f"; "d47d80a1f3ef3f3dcbeb50fa19fd3f7534637ea665fa3f46d25e0e52acfa3faabfa4a5002e533f11ea2d819997713d11ea2d819997713d0b158a5f9a97713dfb03e67b1469a63fe1903096b8c6c73ff5"; "eeb3bec79ec73f206ed5859b97713df973e24a016d893f0a989e127cfec63f530562505b5ef63fa4adc363f50be23f09fbc586b84ef53f0420d965d11a0540c32fe86129f1044049fca16a431c0b40c1"; "6db25a001dfb3fa494aa98f674d43f8595ce5837f6e13f8b7ae0f1c434c23fc9b618a11475903fc76c6218df7f383f"];
["504b030414000000000000002100bbe929d220020000200200000b00140061735f657870732e6e70790100100020020000000000002002000000000000934e554d5059010076007b276465736372273a"; "20273c6638272c2027666f727472616e5f6f72646572273a2046616c73652c20277368617065273a202835322c292c207d20202020202020202020202020202020202020202020202020202020202020"; "202020202020202020202020202020202020202020202020202020200a77dbb677135e5a41255a1b21135e5a412fd87407135e5a4132372de9125e5a4193c3f970c625ff40ddceed6fc625ff4058c07e"; "6fc625ff405e75ed6ec625ff40cf274c0ec625ff40411f1add9bece5405c4ee86532ece5403949046b9110c340630c66d9c833b2405a963b3d3b9caa40a0128faaaf37a0402ec73555b88293402318ed"; "7c82cd8740eec38caf798b7d409af7ba660ca86040568a26c199945240d9fe83abf3734a40b2d2365da0dc45408f3c302d00dc204076bd208a1ac7134031bca2be1f840f401c9db4eb53150840c341a5"; "05c9fff73ff51dffee4f89d83f32cf67e63199c83f9bba1bb65bb9de3ffdd7f7008354ea40b89611b71ab3cd40983069a6b2b2cd4063e3655d1814cd40a8bcef2234ecb4402e8f419ba79ea540cc486c"; "a243ce9840accea4582b988b40a32c1fecdc927a40a465fc4dbed06240c00364ca381a584095db8efa2bb44e4046bc8cb21c0c49408ae944662abe2640ef009f65a87e2040eaa8e600eea216406ad944"; "6b400d0a403cf8613766baea3fa6e017eb3af0d53f2b49afa9a61cc23f7085250d82e0b73face9195b3181ae3f"];
["504b0304140000000000000021002392040f88000000880000000c00140073655f6e756d5f732e6e70790100100088000000000000008800000000000000934e554d5059010076007b27646573637227"; "3a20273c6938272c2027666f727472616e5f6f72646572273a2046616c73652c20277368617065273a2028292c207d202020202020202020202020202020202020202020202020202020202020202020"; "20202020202020202020202020202020202020202020202020202020200a1e00000000000000"];
["504b030414000000000000002100758e6e5288000000880000000c00140073655f6e756d5f702e6e70790100100088000000000000008800000000000000934e554d5059010076007b27646573637227"; "3a20273c6938272c2027666f727472616e5f6f72646572273a2046616c73652c20277368617065273a2028292c207d202020202020202020202020202020202020202020202020202020202020202020"; "20202020202020202020202020202020202020202020202020202020200a1500000000000000"];
["504b030414000000000000002100f69111ac18020000180200000d00140073655f636f656666732e6e70790100100018020000000000001802000000000000934e554d5059010076007b276465736372"; "273a20273c6638272c2027666f727472616e5f6f72646572273a2046616c73652c20277368617065273a202835312c292c207d2020202020202020202020202020202020202020202020202020202020"; "2020202020202020202020202020202020202020202020202020202020200a83c3fe399b4a7b3e5c7c9c4b1e85a53e099ce3174472343f11ea2d819997713db1a0dcf59b97713d69eca184eb93233fe3"; "2035cfa897713d8f8e0d4f9b97713d11ea2d819997713d11ea2d819997713dbb2f4e292ac8513fe8ca22cf0e86a63fda8eb36ca987b43f13e6f904167ebd3ff64dc0c4aa97713d11ea2d819997713dc8"; "37db8972ede13f35def7546131de3fcb205cb3cdb7ea3f0c3a0cce8669ed3f2d4b883c0816ef3f3a62640bbf67f13f023d462fc568cb3f35fd673d87b2fa3f6991fdf376b301403b4276c51c67ff3fc6"; "32f106d3efe73f55403b800eaafd3ffc2d48e39fc7fc3fa1727abce845f83f4f15789f5176543f7b6ad7089e97713d11ea2d819997713d9fc5d690aa56a93f0d71a979466ec93f933a77da1659c73fa7"; "e7965d9a97713d17e16d4de4a9a73f5922f29f88ded53fafab295bb345f73f5d8441ab80b7e63fced583f63b9df33f758a78dce58907405e92528e3f9e07400b2a2eced59d0940673f8aec4ed8f73f8d"; "eb3f83e20fe53f06abf62792b4f03ff3f4b8f94b4fd83f4fc2b9620613ad3f7185bdcdf1a25f3f"];
["504b030414000000000000002100cd551fd718020000180200000b00140073655f657870732e6e70790100100018020000000000001802000000000000934e554d5059010076007b276465736372273a"; "20273c6638272c2027666f727472616e5f6f72646572273a2046616c73652c20277368617065273a202835312c292c207d20202020202020202020202020202020202020202020202020202020202020"; "202020202020202020202020202020202020202020202020202020200acd1b41f6b7f55841b2f420deb7f558411948605e0f0300411b8a3b5e0f030041e268325e0f0300419abeac5f0f030041ecc814"; "5e0f0300419afe675d0f030041944ff30f51ebe5407580f44899eae5402fd7f01614eae5401cff4039b6f3c2401b1bdb688c21b240f66cde1e0319ab400666b1a10b58a0408174227547cd9340c91a5e"; "e914e687405553ed2e33367e40d403c91249d55f40f2d2763c69d2524020d80c1b1d004c4037af841041804740c34fad02ec7a20401df88f60baa714405eb52a0f132b1040424935f5dd280940714bcc"; "099c3ffc3f0df53918783fd93f355de9ce6a76da3f29020cc545c3df3fefb15fbe5c73ea40b9a46b2025e1cd408980960331a4cd4009da03cb8d0eb540bd76dd857a86a5409dc2fd9fab0699404f1120"; "fbded48a4076857157b1e8784036e0a226035a634008bb58c1ba015840bfe46c4ad9974f40a84fe2d5c1a54940d443b2fe1f1129408b752914c06f214006bc3a090132194083ce556393ec0e4068eaeb"; "2b4fbaee3f17df1f3b35c1d33fe3c939c80229c93f16561c2c53d5bf3f4fc755f5f1e9b33f"];
["504b0304140000000000000021002392040f88000000880000000c00140062725f6e756d5f732e6e70790100100088000000000000008800000000000000934e554d5059010076007b27646573637227"; "3a20273c6938272c2027666f727472616e5f6f72646572273a2046616c73652c20277368617065273a2028292c207d202020202020202020202020202020202020202020202020202020202020202020"; "20202020202020202020202020202020202020202020202020202020200a1e00000000000000"];
["504b030414000000000000002100758e6e5288000000880000000c00140062725f6e756d5f702e6e70790100100088000000000000008800000000000000934e554d5059010076007b27646573637227"; "3a20273c6938272c2027666f727472616e5f6f72646572273a2046616c73652c20277368617065273a2028292c207d202020202020202020202020202020202020202020202020202020202020202020"; "20202020202020202020202020202020202020202020202020202020200a1500000000000000"];
["504b030414000000000000002100b63bc29b18020000180200000d00140062725f636f656666732e6e70790100100018020000000000001802000000000000934e554d5059010076007b276465736372"; "273a20273c6638272c2027666f727472616e5f6f72646572273a2046616c73652c20277368617065273a202835312c292c207d2020202020202020202020202020202020202020202020202020202020"; "2020202020202020202020202020202020202020202020202020202020200ade887a819997713d7fdb634fd926933e4eb0aa2fbd365b3e39414b12c466a13e11ea2d819997713d0f17aad511f53d3f50"; "639e05f1eff43e000040819997713d37c9eef39a97713d11ea2d819997713d5abbeea75a96503fc9c4058cdf5dab3f11ea2d819997713da4fa16502a01c33f280fb742d1798f3ff0a0073bafcfd03fef"; "56de07b7f8e13fc01db691700bdb3fd52cd3dbe52ef13f0869602a6152d33faa0a54408b5be13f8285ef67073f0940992d8b06eb18cb3fc569b9b250cdf93f7925562da6db00409f6dd824be96fc3fac"; "d797c74189f83f5b7024536d65fd3f31523c1bea70f83f6b6598399c4edc3f4e6466e44db3533f11ea2d819997713ddada5f26d097713d034372f0a831a03f1cf8a3f08282a03f9c177d97d8bec03f03"; "c61e86e87eb13f5701a5da9b97713dc3d21c6ca943863f198a2c0396e3d83f79f0b3e64f9bf63fe3cb3256aff2e73fefeee36b6dc6dc3f87fb3ab4e4120940b9b9cac6b331084037cbc5f1477b0740a3"; "4fc2758b44f93fc7d2adb09e4ff43fe5c2806333b3f83fe89c308be94ce43f03043fa22c1b783f"];
["504b03041400000000000000210067fd4c3f18020000180200000b00140062725f657870732e6e70790100100018020000000000001802000000000000934e554d5059010076007b276465736372273a"; "20273c6638272c2027666f727472616e5f6f72646572273a2046616c73652c20277368617065273a202835312c292c207d20202020202020202020202020202020202020202020202020202020202020"; "202020202020202020202020202020202020202020202020202020200aa9a4909ba1eb58411333a840a1eb58411751b623a1eb58414c265efea0eb58415534e28c568f00414a23ed8b568f0041fac25c"; "8b568f004149c4c588568f004133b54209538f0041db4f6c0a6360e7402a7693725f5fe740ff3380e299a2c440eb7d63616019b540939e8930705cab408b5dec36034aa0408731098b25db9340a308bf"; "1802de8740af12dd07f1267d40df2fe76591055f40a59161a7d58e52402afce97958724b40ce37a767982f4740ede35462893b2040d2c35fb7652a154081909fb0094e0f4046c5203557070d40f9259a"; "f4e54cee3facba82e1fbb8e33f2c08f88efb49d53ff5ea25cdb646c33fcad3310b1bfceb40f5983283e69acf40e34b9939dd9acf402a2682670fcfbc4071f84a98ccdeb3406690491bc054a54068b2a3"; "96130199407cc4e953add78940700b2ee00e4f7540cd3b6c6a06526340a759fcbc38445840c3f23d367e9e4e40f3a1f24cdcd42d400631d4af23842a401e09e81548de2140fd6f815e099e1c4038409b"; "bfa7321240be99b49c175bec3f444bddd9e899e03f6ce666890b79d23f94a641bb0f62b93f"];
["504b0304140000000000000021002392040f88000000880000000c0014006b725f6e756d5f732e6e70790100100088000000000000008800000000000000934e554d5059010076007b27646573637227"; "3a20273c6938272c2027666f727472616e5f6f72646572273a2046616c73652c20277368617065273a2028292c207d202020202020202020202020202020202020202020202020202020202020202020"; "20202020202020202020202020202020202020202020202020202020200a1e00000000000000"];
["504b030414000000000000002100eb8ec49e88000000880000000c0014006b725f6e756d5f702e6e70790100100088000000000000008800000000000000934e554d5059010076007b27646573637227"; "3a20273c6938272c2027666f727472616e5f6f72646572273a2046616c73652c20277368617065273a2028292c207d202020202020202020202020202020202020202020202020202020202020202020"; "20202020202020202020202020202020202020202020202020202020200a1400000000000000"];
["504b030414000000000000002100312b350010020000100200000d0014006b725f636f656666732e6e70790100100010020000000000001002000000000000934e554d5059010076007b276465736372"; "273a20273c6638272c2027666f727472616e5f6f72646572273a2046616c73652c20277368617065273a202835302c292c207d2020202020202020202020202020202020202020202020202020202020"; "2020202020202020202020202020202020202020202020202020202020200a11ea2d819997713d11ea2d819997713d0038df9b9c97713dd3adb5ae7042ff3e11ea2d819997713df991c78d9d97713d2d"; "588463a797713de7e0bb6da197713dd6101bf6d798713dd84341b20183783f11ea2d819997713dcfbccd9e4494993f3df559b621728e3fab3ca6b3e7a3aa3f1aef8bc73a7ada3f11ea2d819997713d05"; "721f96f5b7e53f3e05d9e67115d53f60e59beaa7b7f13f704831a74165d13f3aac9983a9e1e93f90ebea7cf4170840be00e9a9cbe2c53f30cc39b900d7f53face88f3770d9fd3f9af7bece5738f83f14"; "f43878a502f63f24d19a2f5e5f07408346e33a4e670540c0abecfae7e2bf3fdf10701011ae863f199c3c59a297713d48a2dd9c0e18a43f2f9b9aa3a897713ded08b2a6c4e4933f554966cb05edc33fb6"; "f9f1219f97713d324eb494abed8d3feb9a37798eb0dd3f1184e7bfab4bf53f9cac64a81f1ae53f7785b8982ddef93fc183bbe071950140a01e21f6e252124030129ccbde41f83f302657574f1c004095"; "34bed03e85f33fe97330fcdb57f23f10bb8e461af9d13feac41cd82c334d3f"];
["504b0304140000000000000021007da36a6210020000100200000b0014006b725f657870732e6e70790100100010020000000000001002000000000000934e554d5059010076007b276465736372273a"; "20273c6638272c2027666f727472616e5f6f72646572273a2046616c73652c20277368617065273a202835302c292c207d20202020202020202020202020202020202020202020202020202020202020"; "202020202020202020202020202020202020202020202020202020200a6fb162d7cacd814162366e9e166b2b410fde6e9e166b2b4102206e9e166b2b41a2816e9e166b2b4172206e9e166b2b41089acf"; "2ffa5ae240c3e802e6f95ae240156d30e9f95ae24006e752f2f95ae240012074f3f95ae2401d22181ad5b4c740a287ec9fee3eba407bb835409a1ead406d0af6f59cc3a0408b9f9bcf676394409df6c6"; "849a2288405f2e6b8edbb57b40ba1e74adbbde5f40ad113ca32b3353402b489f51a7274d405f2fef78803648408dd86970e2e41f400cf8e1a0d22617408ee64039c19f114064c3b309a44d1040acbfcd"; "2b5f53ed3f7edf7d5935c2d43f953dd5615db6df3f883133f11e93c13f122c957a0261d0405ba543d5c560d040f601b15e6b9eba4065b6253d663fb440c3a656819533a540c52b43f09a4c99404b0c6f"; "9455a789403f8ed606fac2724023e32be03ebb63404f770ca749285940414988fc9b8a5040f313014360122f40bfcdb4f978152c40fa3e4f0b5d9f22400003ebaa801a1e4089c1bf97953315400b882b"; "c21f79f33f580e3069536fe83f26cf07d289e1ce3fde4a44eba1c7b73f"];
["504b0304140000000000000021002392040f88000000880000000c00140072625f6e756d5f732e6e70790100100088000000000000008800000000000000934e554d5059010076007b27646573637227"; "3a20273c6938272c2027666f727472616e5f6f72646572273a2046616c73652c20277368617065273a2028292c207d202020202020202020202020202020202020202020202020202020202020202020"; "20202020202020202020202020202020202020202020202020202020200a1e00000000000000"];
["504b030414000000000000002100eb8ec49e88000000880000000c00140072625f6e756d5f702e6e70790100100088000000000000008800000000000000934e554d5059010076007b27646573637227"; "3a20273c6938272c2027666f727472616e5f6f72646572273a2046616c73652c20277368617065273a2028292c207d202020202020202020202020202020202020202020202020202020202020202020"; "20202020202020202020202020202020202020202020202020202020200a1400000000000000"];
["504b030414000000000000002100e3eb5aa910020000100200000d00140072625f636f656666732e6e70790100100010020000000000001002000000000000934e554d5059010076007b276465736372"; "273a20273c6638272c2027666f727472616e5f6f72646572273a2046616c73652c20277368617065273a202835302c292c207d2020202020202020202020202020202020202020202020202020202020"; "2020202020202020202020202020202020202020202020202020202020200a0d8a74e7cb25b13e6ae04b4b1e1e603e01562ba2c781fb3e5cfc5ec9a3b1803e98b9d768a148773f8fe947601b05053fa3"; "72e0704d13263f4158de607498fe3ecced562b1bc4103fc96a43cc5ff3993f7c5749b2a0de953fb4c239789abcb13fa93ffbd95904d93fe714dfb4f806b53f466cc8b9541ee63ff8725a2589d7d83f5e"; "9b208ed4e0e33f357998f1ba5ee93ff1348ccd256df33f015ae61228a5fe3f1b96a4d6f7edc53f6635d9be033bfa3f350bf143721e06405be51cfb53f9fe3f0a3066362e53ef3ff1c9f7f72c47f53fbd"; "2c41bf6e55e43f646125ab2e51f03f85217d9d0766b33f1f9807a7d005573f19c6e6b12a05853fc2021443eb77ea3ea1bc75bc6480a13ff56c5799b797713ddcdc4f13304e913f5038c71caaf7be3fe6"; "780962eec9483e2c1d61a31d3ac13fd0986f299587e93fcfda301ec519f23f0b234bd5fa49ed3f364da128eb9601403ae3e910df62024037f5fdde628d12401cf5e4bfeac7fa3f4b71c71b1236fb3f0e"; "27cddac0f1f93f2125bd3f493103406399451be202d83f47a7e1e50dd9c43f"];
["504b03041400000000000000210068e9fd6910020000100200000b00140072625f657870732e6e70790100100010020000000000001002000000000000934e554d5059010076007b276465736372273a"; "20273c6638272c2027666f727472616e5f6f72646572273a2046616c73652c20277368617065273a202835302c292c207d20202020202020202020202020202020202020202020202020202020202020"; "202020202020202020202020202020202020202020202020202020200aa897468672672f41d575468672672f41e530478672672f41296b6f8672672f41612b96600750e340ecd6c07b0750e340764110"; "570750e340b9a6e9720750e3406fb389830750e340b1788d0d101ac840bc2a33d31bcbb8405287bada383cad40ac2e568fb8dba04011bf9d545abf9440dc49b4d3a28c8840487746d7e3ef7940c73a8f"; "8287616040bff777ad501e54407b26111b2d504f40d047b4712a134840bf364797d70921403ee435d9ea231740362a9b011cf711407437a1120b1b1040e7c6f0233228d83f226f2fa32d72df3ff2cfa3"; "1eebc8dc3f832ec10c297baf3fa267c1e2bfbf9a3f30c1da05fc14913f5e7a89b65839d14084633f1e3239d1400c45da3e9f41bb403802f4ba1bc0b4409520104c976ea540c07f976e81ab99409e28ef"; "ea4de089409dfb755e851c71405390f1a58b296440eb509a61f0a459408562feb17fe551403b73135c6f22304036c7b7d6754d2c4098272ac1caf722408bb3f94bf2e51b400f5abbc88e80fa3fd59421"; "b322bff33f502e4bc2150deb3fa4fcf3266a8fdc3fcda189f8615ea73f"];
["504b0304140000000000000021002392040f88000000880000000c00140073725f6e756d5f732e6e70790100100088000000000000008800000000000000934e554d5059010076007b27646573637227"; "3a20273c6938272c2027666f727472616e5f6f72646572273a2046616c73652c20277368617065273a2028292c207d202020202020202020202020202020202020202020202020202020202020202020"; "20202020202020202020202020202020202020202020202020202020200a1e00000000000000"];
["504b030414000000000000002100758e6e5288000000880000000c00140073725f6e756d5f702e6e70790100100088000000000000008800000000000000934e554d5059010076007b27646573637227"; "3a20273c6938272c2027666f727472616e5f6f72646572273a2046616c73652c20277368617065273a2028292c207d202020202020202020202020202020202020202020202020202020202020202020"; "20202020202020202020202020202020202020202020202020202020200a1500000000000000"];
["504b0304140000000000000021002f02d7d618020000180200000d00140073725f636f656666732e6e70790100100018020000000000001802000000000000934e554d5059010076007b276465736372"; "273a20273c6638272c2027666f727472616e5f6f72646572273a2046616c73652c20277368617065273a202835312c292c207d2020202020202020202020202020202020202020202020202020202020"; "2020202020202020202020202020202020202020202020202020202020200ab2982cbc3f339b3ef2916cb370fb8a3e36cac517c0d4443f23bf6f022a98713d000000819997713d5cf4d0f18245f73e11"; "ea2d819997713d9eb2b4d5a8fa423fd1c2364c61dbb33f114a4172a597713d11ea2d819997713de0e6a09fc7c6cc3f11ea2d819997713d34e4e2009b97713d1b4ebd30b034e63f0b2eea44a700cd3f94"; "3730812d38d83fd7bf57f4cf75fe3fac1bcf7590f30140dd2d991cc82df83f112a8518a297713d043ecf4fb593f33fa050db9decddfb3f18e6464f3a6cf33f603263e08518583f114a4f949d97713d11"; "ea2d819997713d3acfc79ad2870040ef84a22d1082c73fa0db310560ec703f36b028158c585f3fbda92d2e9d97713d11ea2d819997713de28b3cd41a4fa53f397c16a74382a93f96732e8193bfce3f9c"; "eee65ce7d7c83faeef25183580983f11ea2d819997713d97e47f47d73ae43f7dc0bce4b123d73fbfb8bc412a18e83f61caab61cbee004085e5430b7b510240fe08a6a091d51740ba52bd59c5ea0440ca"; "9ec71e0b4c02404ec5a320523b0240c81d72d51496fe3f72baeba469770140015b9729ff5ad73f"];
["504b0304140000000000000021002c03de9b18020000180200000b00140073725f657870732e6e70790100100018020000000000001802000000000000934e554d5059010076007b276465736372273a"; "20273c6638272c2027666f727472616e5f6f72646572273a2046616c73652c20277368617065273a202835312c292c207d20202020202020202020202020202020202020202020202020202020202020"; "202020202020202020202020202020202020202020202020202020200a52314c3e91de61410008593991de6141830d173b93c402419c40133b93c402418380ee3a93c402413fb60a3b93c40241807441"; "363224ec4093eaa39ca223ec4089e34513aa97c44017c3b58c7dffc2409df61076a94ab5405f13973cd9f0ab407c0d695ef5a3a0404496867c54ef94408f199931cade8840f61fe9d4240d78406043a7"; "d425be604075de3e16100c5540f41fc97432085140ca06079a25874640942616885dcd1f4017f715ebc9451540b66dacea10a9124068691b3207cf1440bc954e8258d2fa3f3ab23f6c2df9e13f43249a"; "454229ad3f7ffec7d630abb83f57810cd314eea33ffa824c1ddabb983f35e13f5c809df0402121541b3326d240a8a529cb2526d24012b5cc8950f2bb406e20eaf9a160b54015b36ab0d5baa5409015a7"; "48bf0d9a40211d48a8f5078a4008e468866bcb6f40796fc482069e64406115fd5fd7705940a6de5d4b562353402ac200ddfb073240d86092b8670c30402261f713f9662540872ea9933c9b1c403a4048"; "dc9242ff3fa7bc74411e1df43f0069c1865e80f23f509b971e6509e73f6981ac5944f9b13f"];
["504b0304140000000000000021002392040f88000000880000000b001400795f6e756d5f732e6e70790100100088000000000000008800000000000000934e554d5059010076007b276465736372273a"; "20273c6938272c2027666f727472616e5f6f72646572273a2046616c73652c20277368617065273a2028292c207d20202020202020202020202020202020202020202020202020202020202020202020"; "202020202020202020202020202020202020202020202020202020200a1e00000000000000"];
["504b0304140000000000000021009689e1dc88000000880000000b001400795f6e756d5f702e6e70790100100088000000000000008800000000000000934e554d5059010076007b276465736372273a"; "20273c6938272c2027666f727472616e5f6f72646572273a2046616c73652c20277368617065273a2028292c207d20202020202020202020202020202020202020202020202020202020202020202020"; "202020202020202020202020202020202020202020202020202020200a1600000000000000"];
["504b030414000000000000002100cd28b23920020000200200000c001400795f636f656666732e6e70790100100020020000000000002002000000000000934e554d5059010076007b27646573637227"; "3a20273c6638272c2027666f727472616e5f6f72646572273a2046616c73652c20277368617065273a202835322c292c207d202020202020202020202020202020202020202020202020202020202020"; "20202020202020202020202020202020202020202020202020202020200ae7feb1e7d555a63e11ea2d819997713d85908b7cb397713d000000ca4b98713d11ea2d819997713d11ea2d819997713dbe28"; "6e5567204a3f62ffe34787a4303fdee827b8c540b53f11ea2d819997713d11b2bfc4a497713d609047326fc2c93fc9b38b82156ca73fbd5b20fca597713d1d09e9f2561de73fb944857ae6cacb3fe170"; "3f971bdbc73f6b16febb9afaf43ff35851f182d7114013a955201b49c63fc136eadf5577fb3f499d855f4c1d0340d19aead9a88f0240155b077db3aa753f549bd06e45f8e83f59b42945700bf03fb687"; "7cd7cd64e23fc589ad2db2ceff3ff0454d287c66c63f9e00f1b494e3743f55dc72f951dc613f2d1e9f5075d9e23e11ea2d819997713d85ddb9b09d97713d7f66e82e0161a73f8f6096ae2a64ae3f6a6d"; "c37ef292cd3ff09e450e31b7c73fb7ad1c37738f7c3f35d947c89e97713dc4e92fd6901ce73f95627067a297713dd37c13294e58e53f61ad85ae020dfd3f76fad739cf590640b344f70017511240c515"; "26aeda58f93f5e4a19c7185205408606eab4b65b04405f87c192261bfb3f41bfca6c4a7fd43f75fd40ae4f23e73f"];
["504b0304140000000000000021008619b00a20020000200200000a001400795f657870732e6e70790100100020020000000000002002000000000000934e554d5059010076007b276465736372273a20"; "273c6638272c2027666f727472616e5f6f72646572273a2046616c73652c20277368617065273a202835322c292c207d2020202020202020202020202020202020202020202020202020202020202020"; "2020202020202020202020202020202020202020202020202020200a63fbdb33e6c061419cae5c0a75c4024156ac1d0a75c40241f232f70975c40241e01ddc1075c40241f8fcdd0975c402417aaa5e0d"; "6ec4024125357c3355daed405586e4c42050c54056f3d73dc149c34032f687cf1cd9b5405e81c1bc4c5eac40edc967364fe5a040092842c1434695402a48da83293589401071a5fa471e76405c951c40"; "efe7604020fc35f219a055408719e2a000a25140e0b8e70667413040f94610e260c01f40cd6f2ee056911c4023e68a7a79ae17406e3b82d61c1711404c953e3a5c20e13f0cfe565969d1e23fec65d701"; "8ae4e13f1bb90ec820bfc33f74e2bd8a29bba63f1e15f28557679c3ff2266095ed74f1402aaa1562ed74f1404489409cb2f9d2408ce8835791f9d240e49af04f9d64bd40d252abb7c096b540a5da4d94"; "1c09a640b1b44a3f7d4f9a409346575f731b8a40e84663d5def46e4028276b6d56f764400646f3aa966d594040d769a796d2524073383545c6553140ff2190bb906a3040ccc11422511725404afbbd8f"; "f89b1b4024ff2324a7e6ff3f0803c48398c8f53fac6f7d1061ccef3ff84c5647f20db43f3b33f6930989be3f"];
["504b0304140000000000000021002392040f88000000880000000c0014007a725f6e756d5f732e6e70790100100088000000000000008800000000000000934e554d5059010076007b27646573637227"; "3a20273c6938272c2027666f727472616e5f6f72646572273a2046616c73652c20277368617065273a2028292c207d202020202020202020202020202020202020202020202020202020202020202020"; "20202020202020202020202020202020202020202020202020202020200a1e00000000000000"];
["504b0304140000000000000021009689e1dc88000000880000000c0014007a725f6e756d5f702e6e70790100100088000000000000008800000000000000934e554d5059010076007b27646573637227"; "3a20273c6938272c2027666f727472616e5f6f72646572273a2046616c73652c20277368617065273a2028292c207d202020202020202020202020202020202020202020202020202020202020202020"; "20202020202020202020202020202020202020202020202020202020200a1600000000000000"];
["504b0304140000000000000021004697800f20020000200200000d0014007a725f636f656666732e6e70790100100020020000000000002002000000000000934e554d5059010076007b276465736372"; "273a20273c6638272c2027666f727472616e5f6f72646572273a2046616c73652c20277368617065273a202835322c292c207d2020202020202020202020202020202020202020202020202020202020"; "2020202020202020202020202020202020202020202020202020202020200a08d0134dd37ca03e11ea2d819997713d719a65c64b98713d000000809997713d61cda3fc621c473f52cd11063699713d11"; "ea2d819997713d951e802a583e343f34083c53d1bfb83faad84fcca097713d11ea2d819997713d46a459539968c63f11ea2d819997713d11ea2d819997713daaa348951301e73f735bde2974a2c83f98"; "e897c1667ada3f11ea2d819997713d7dd4814bf168174036bb73b6b5e0913f285357ea4075fb3fc2830a78f1b80340598bd2f2eaf60140738fb040aad6243f9a1b081204b4f03f1670b275ee80f63ffb"; "5de4154ad900401872d621cf28ee3f594c23111b5fa13fe2b06e92cbe4413f344e02d71547613f11ea2d819997713dbf866e6e9a97713d4a9d37e59a97713de8bc555cdfdbab3fb865b2544a2eb93f8e"; "7e45b92455d13f2cdf5d52fb50c93f11ea2d819997713dedd989619a97713dde2f4adc8533e83f11ea2d819997713d77d04db158b0d53f1bccb86866a107402bc6734436c60240d60d75be54cd0e4024"; "f9b120dcb0fb3f7e3012a11f4b0a40b9806f6b37c70140a10a925cb445ff3f5d0523acd0f4d93faa3a79d4a635ba3f"];
["504b030414000000000000002100c1b41fb220020000200200000b0014007a725f657870732e6e70790100100020020000000000002002000000000000934e554d5059010076007b276465736372273a"; "20273c6638272c2027666f727472616e5f6f72646572273a2046616c73652c20277368617065273a202835322c292c207d20202020202020202020202020202020202020202020202020202020202020"; "202020202020202020202020202020202020202020202020202020200ae4670a18c7296641aaeb1e0c473a0541ea2b1a0c473a0541213b160c473a0541d1e22f0c473a05414f5b4b0c473a05416da8f6"; "74f23df040f86b74ef7b3cf040d983f225454ac64074f562ed5773c240db3be66a0089b640d0f18ffaa8a6ac40e81419ed0538a140796f3b32aabd95405c17ef2c536f8940f2128d88f3847440dd9a2d"; "9a0723614015da299fff5456408a991850b17f52400feb3cf5bb382e4085bb09bfcc27224089b56b05fc111e40ba1a2845f0b71a4065c8a61563dbf23f0dcd0b63b717e23f05d4a82f3558e23fb44e99"; "814284bf3f85b59eb4c744cd3f5c8e741f7555a33f5f6fbcfd0c10993fb7def6095923f340daa8f4af5823f340bddf88332cd4d4402ec16fa8dfd3d440a8c411a2bc1bc040dcded43d98d7b5404c61c0"; "fd4e8ca6404842664cc8b29a40bdf7c6c310bb8a40291c49fc7ec56f406b2adebd35816540c108b3027f395a40d5dd1c6b2ea454400daab448f107334037aa9a5965672f40fdf6f0e5975b26409bc688"; "d3b20b2040698dbc9d0ada0040a614f661231af73f0d83b1ba418df13ff179e7ed5bcdb73f990250b11315b03f"];
["504b030414000000000000002100bd92aec388000000880000000c0014006e625f6e756d5f732e6e70790100100088000000000000008800000000000000934e554d5059010076007b27646573637227"; "3a20273c6938272c2027666f727472616e5f6f72646572273a2046616c73652c20277368617065273a2028292c207d202020202020202020202020202020202020202020202020202020202020202020"; "20202020202020202020202020202020202020202020202020202020200a1f00000000000000"];
["504b03041400000000000000210008894b1088000000880000000c0014006e625f6e756d5f702e6e70790100100088000000000000008800000000000000934e554d5059010076007b27646573637227"; "3a20273c6938272c2027666f727472616e5f6f72646572273a2046616c73652c20277368617065273a2028292c207d202020202020202020202020202020202020202020202020202020202020202020"; "20202020202020202020202020202020202020202020202020202020200a1700000000000000"];
["504b0304140000000000000021005b3ff45c30020000300200000d0014006e625f636f656666732e6e70790100100030020000000000003002000000000000934e554d5059010076007b276465736372"; "273a20273c6638272c2027666f727472616e5f6f72646572273a2046616c73652c20277368617065273a202835342c292c207d2020202020202020202020202020202020202020202020202020202020"; "2020202020202020202020202020202020202020202020202020202020200a6becdb539a97713df8a5a5739c97713da061e3219a97713d3bfd26e89997713d08cc79218cd5163f177a26b724c0223f11"; "ea2d819997713d11ea2d819997713d11ea2d819997713d88e6fdcdec8eba3fefd1ee44c297713d9db3ccd91f46c13f11ea2d819997713df04866b29997713d11ea2d819997713da035e54db486e63f26"; "731e53e001ca3fbd7cce1a4176e93f1bc08a819e97713d40597afd49dd1240499252ccd638c33f075cd4922cb9fe3f9e19c821a190044084cfc2da20f2fd3fedec976cf74ddc3f2998c445ff51f83f57"; "0f3f59b114fe3f4fd43747f5a4f73fecd6111a32d5ef3fd285e0fd8462b43fb69f7f38c40e653f8c7ca200178f3f3f11ea2d819997713dab9c54eeb4e8663f1e3c2b9c9a97713d7dc141039c97713d11"; "ea2d819997713d3ecb7df6f93ac73ff138409fcd2cd43fe672ff1042bcc93f11ea2d819997713d2661a4f68e2c9c3f3181852be2faea3f2f9486099a97713d084c63690a3bec3f2b28399e117406403e"; "eb5ca1d8750d400056d19cdb9307409fb8c675fa25f63fc2f0803eee900e408f53bd8a9dd4fc3fbf1607c52ca200407148a6f3b050d53fe2108c53fe7bbf3f"];
["504b0304140000000000000021005c053ebb30020000300200000b0014006e625f657870732e6e70790100100030020000000000003002000000000000934e554d5059010076007b276465736372273a"; "20273c6638272c2027666f727472616e5f6f72646572273a2046616c73652c20277368617065273a202835342c292c207d20202020202020202020202020202020202020202020202020202020202020"; "202020202020202020202020202020202020202020202020202020200a2b2a27d7b5e425419fab959ab5e42541dcec9319b5e425417c1d1933b3e42541b0802067dfe22541f2f33233a1511041ada5be"; "aa264810415a9eadc6fd4ef140d1342f3ff94ef1402ac662e9b43cc440443ca012c686bf40b8e444251440b640fdcf0d27e527ac408e77a9be665aa140a65c40ef521296408cb358c06ea689408fc426"; "c852ad72409862581d045e61406893e207a973574043c3ea0e92c25340a32662d14dea2d4033243bb185e62240fe3f30987b0f214012336a9cfb2d1e40a7a38dda7a17d33fab8ef9e2968fd03f4a0b96"; "d5237fe13f95852ba20c86e33fc594102d5f12bc3fa3949d1e6191a93f80d47287d311a03fcec2ddb698061341ad0c31c88b13f540b4711d618b13f540c7a85e43514cd640f7ee5826364cd640b3b9fb"; "9e1907c14038ee5211c02bb640a349205d0ffea640b5a657fa88019b403dc4e04ed12a8b4090ac49d4225f70405ce08e72e5026640e0c64c0f99c05a406f3eaa6e6cfb5640e88dc3dad0413440649fe9"; "b3deb42f406b0ae796d0ca244064490e07dcdf22402bec66580d7f0140c0f0a6a8db84f73f9387a6546ed5f23f4f2625aacbe5c83f54d010b3fbc6b53f"];
["504b0304140000000000000021002392040f88000000880000000c0014006d6f5f6e756d5f732e6e70790100100088000000000000008800000000000000934e554d5059010076007b27646573637227"; "3a20273c6938272c2027666f727472616e5f6f72646572273a2046616c73652c20277368617065273a2028292c207d202020202020202020202020202020202020202020202020202020202020202020"; "20202020202020202020202020202020202020202020202020202020200a1e00000000000000"];
["504b03041400000000000000210008894b1088000000880000000c0014006d6f5f6e756d5f702e6e70790100100088000000000000008800000000000000934e554d5059010076007b27646573637227"; "3a20273c6938272c2027666f727472616e5f6f72646572273a2046616c73652c20277368617065273a2028292c207d202020202020202020202020202020202020202020202020202020202020202020"; "20202020202020202020202020202020202020202020202020202020200a1700000000000000"];
["504b0304140000000000000021000f1df04028020000280200000d0014006d6f5f636f656666732e6e70790100100028020000000000002802000000000000934e554d5059010076007b276465736372"; "273a20273c6638272c2027666f727472616e5f6f72646572273a2046616c73652c20277368617065273a202835332c292c207d2020202020202020202020202020202020202020202020202020202020"; "2020202020202020202020202020202020202020202020202020202020200ab757caab9997713d11ea2d819997713dc7f359da9997713d11ea2d819997713dd48d1c7c3c7e183f3005f11fd061253f4b"; "470b839c97713d11ea2d819997713da70182a39997713dd8f50e7b2156bb3f11ea2d819997713da8adfbb5c7ecc23f11ea2d819997713d5c797a9baf97713d11ea2d819997713d99daf2202994e53fa4"; "3e0fc07a41ea3f0298dfd82adbdc3fd0de47a57b6acf3f40e3643245adf73fbdd82b412178d83fa9fbfa9ce02000407bd4dcac97e0024019014b099156fa3f741382fbeccce83f0b6894b7b0affc3f28"; "1b04980807dd3ff7f59639b086f53f89c5d4a64cf0c03f3fd0aab9cf6c323f3d37298917f9403fc27029581afe363fdc76d3c57e1e663f11ea2d819997713da0cb08b59d97713d11ea2d819997713dc3"; "533e993f37c83fda6afbbfce0ed53f783fd53b15e6ca3f4a85d16cc28e7e3f009602f8b307d13f048709065f3afd3ff61e0132eccbc93faa08c7fa3bd60040a004456dc1490c400d5eebef41030740f5"; "30a83f789a1240c5000203e0b2f13f1f0ddb7c046f0b40b144bab6a4cb11408433d12d6e54fc3ff06c2c8d7cebca3fb71e649c0ad86c3f"];
["504b0304140000000000000021007402e58e28020000280200000b0014006d6f5f657870732e6e70790100100028020000000000002802000000000000934e554d5059010076007b276465736372273a"; "20273c6638272c2027666f727472616e5f6f72646572273a2046616c73652c20277368617065273a202835332c292c207d20202020202020202020202020202020202020202020202020202020202020"; "202020202020202020202020202020202020202020202020202020200a3030854195f92541c34b71fb94f92541e440f16294f92541218a322792f925416bd8149f9af725410c6ac0ed706010416c3176"; "0171561041fb01f866cd6af1400b7b85f6c76af140fca0f0125e85c440b3d0c565ab92bf408a7b19a52ca3b6408310d3befb49ac40bc4b69a607a1a140e6082478e26f964033177153a8258a40c9a408"; "04e0fa704038a7c86593ad6140cf55cf69268d58408962d1314b1c5540e7a3f547fa672d407d894d8e4f5d234058347da76301234069dbbe9be80d2340ec7a1364a681c13f28637429f67fdb3f5f70a4"; "980bebb63fb0363ca09c66d13fe0104a154e20ae3f60136ced004d9b3fefb1544049191341a047b4eec134f5401f786906c234f540ea6ff266ea89d6400ceb0579cb89d640b0149ac6653fc140f3d7a8"; "2b5647b640bd7144732840a740ce21e754ac259b40d5538fde99848b401d3cea58d4fb7040b067a84d7dd565408ef09fec08515b404cfc647bf7645840ffde70cebdbd3440c26674ddd9a930402ed70e"; "b3df7d25405f9f57a9cf070340ea4c188ebf07034020e399f0dae0f63f9397db8e64a3eb3f24460d80ae41cd3f1d440b3a9d80a63f"];
["504b0304140000000000000021006cd3439f88000000880000000c00140074635f6e756d5f732e6e70790100100088000000000000008800000000000000934e554d5059010076007b27646573637227"; "3a20273c6938272c2027666f727472616e5f6f72646572273a2046616c73652c20277368617065273a2028292c207d202020202020202020202020202020202020202020202020202020202020202020"; "20202020202020202020202020202020202020202020202020202020200a2000000000000000"];
["504b0304140000000000000021009689e1dc88000000880000000c00140074635f6e756d5f702e6e70790100100088000000000000008800000000000000934e554d5059010076007b27646573637227"; "3a20273c6938272c2027666f727472616e5f6f72646572273a2046616c73652c20277368617065273a2028292c207d202020202020202020202020202020202020202020202020202020202020202020"; "20202020202020202020202020202020202020202020202020202020200a1600000000000000"];
["504b030414000000000000002100b41fa35d30020000300200000d00140074635f636f656666732e6e70790100100030020000000000003002000000000000934e554d5059010076007b276465736372"; "273a20273c6638272c2027666f727472616e5f6f72646572273a2046616c73652c20277368617065273a202835342c292c207d2020202020202020202020202020202020202020202020202020202020"; "2020202020202020202020202020202020202020202020202020202020200a01af2ad16f7d7d3eadf9ff2197eb953e0046c4a19997713d11ea2d819997713d11ea2d819997713d11ea2d819997713d91"; "667f43de7e4d3fdeda0281b797713d1195bf8d9997713d11ea2d819997713d4a85304853aac43f11ea2d819997713d44b9b180ab97713df83b640fcc97713d11ea2d819997713d51e16be4e097713d5d"; "3648360a67e03f73f445edc3bbd43f8ec6d7aa6f2d0540131e95f883d9883fcf31a760e28fb63f6b25d9b9e106c93f4df08cbf3ca4ff3fb6edcb08984f01408fb051e00efff33f81237d405422f53fa6"; "632ee2ce78f13fa774b8c3c485f63f71dbfc9cd332b03ff069661e650e8b3f152f68b2992cc03f512ecf2412d9633f000000819997713d10454c1f4b4b683ff94ac1249a97713d62bffa3d9a97713d72"; "6715ea9391b53f4dec620a018ece3f7f0a94c9a16cd63fcc47d1ebe842d13ffc303c565b1ab43fa33c20db285dcc3fab100cd1faa7f43f6b8d95182160ea3fa8342dce0bc0ff3fe9341369efef1540d0"; "0461e9adacdb3fafeb43c5ffa41740965ac357520c00406236d660abb00b404077d3bfe1071440ddc0df2fbfc7fc3f8ee7058606d9b63fd0b4bea8a8bfba3f"];
["504b0304140000000000000021007e1b966630020000300200000b00140074635f657870732e6e70790100100030020000000000003002000000000000934e554d5059010076007b276465736372273a"; "20273c6638272c2027666f727472616e5f6f72646572273a2046616c73652c20277368617065273a202835342c292c207d20202020202020202020202020202020202020202020202020202020202020"; "202020202020202020202020202020202020202020202020202020200aff8e080c95796a4121373a0b95796a41daec7e0a95796a41840f26bb44950741f80874bb449507419e4427bb44950741398132"; "bb44950741965609bb44950741553751214510f240dcbec3e90210f24021edb1d3fa71c6407279b2481537c0409dd597d8c783b74098fdb62433c3ac40f6f5189c27fea140cfc862a046d99640115697"; "405ff28a40671b03d974b26f401c6bf93719066240009b511a52f659407cfa1c0ab362564036f97c44cd4c2d400f19239aa74e2640999738c6b7bd2640f8f65d3c125126404246bde32ff2be3f9fcce4"; "f80632c83fdb3188a9e5aad63fbf773f905635a93f498c8e4676b3cf3fcef36c0fe8cbb03fb1c4ef9c2489a03f21ce8a7d8243f540a4162c768243f5405ae02061ad31d74024b23b8a7631d74085031c"; "2a36b0c14056447705dc28b6400047ee7c3482a74062d33ad2f7139b402665895995da8b40d250d76b1587714097f450dc672d65407044babc5a405c4017cc056885aa584037f5ed64882735406a2cb3"; "13a6bc30407ae9194351db27405d2ad541415204402b939f757f230440e08b28ca1b80f73f7fcefdd180c5ea3f25cd8d892183b63f317d5addd3d3ba3f"];
["504b030414000000000000002100bd92aec388000000880000000c00140072755f6e756d5f732e6e70790100100088000000000000008800000000000000934e554d5059010076007b27646573637227"; "3a20273c6938272c2027666f727472616e5f6f72646572273a2046616c73652c20277368617065273a2028292c207d202020202020202020202020202020202020202020202020202020202020202020"; "20202020202020202020202020202020202020202020202020202020200a1f00000000000000"];
["504b0304140000000000000021009689e1dc88000000880000000c00140072755f6e756d5f702e6e70790100100088000000000000008800000000000000934e554d5059010076007b27646573637227"; "3a20273c6938272c2027666f727472616e5f6f72646572273a2046616c73652c20277368617065273a2028292c207d202020202020202020202020202020202020202020202020202020202020202020"; "20202020202020202020202020202020202020202020202020202020200a1600000000000000"];
["504b030414000000000000002100f300cab528020000280200000d00140072755f636f656666732e6e70790100100028020000000000002802000000000000934e554d5059010076007b276465736372"; "273a20273c6638272c2027666f727472616e5f6f72646572273a2046616c73652c20277368617065273a202835332c292c207d2020202020202020202020202020202020202020202020202020202020"; "2020202020202020202020202020202020202020202020202020202020200ac7619d100098713d25402e12c497713d7d995f839997713d47e6aa5059e7123f14c8d037b802303f11ea2d819997713d85"; "cb4c939997713dfe5414709a97713db3e286899997713d3fb3681bdd9db73fa79541abbb97713dcb7dcf242432ca3f11f977756398713d2b1335ee9997713de3ad00e7bfa8713d6d010bcbae56d23fba"; "f4ec0cfd98713ddf32ed3ab7cce63fbc5edd23c997713dad102c5d5ffc15409831fc7cbe42c43f5d1032277641fe3fcfc4b6aed686ff3f6ed3a54b250aeb3fceac7820a6f1df3fea6ed93e43f7f63f87"; "d10f77dfb9ef3f91ff76369612b83f5e40081eca9ec53f45429f417108723f416c4d04c8b6c03e9b672c18b75a3f3f1350ce725ab0713d73b5744f6a226a3f11ea2d819997713dcdbb45819997713d40"; "3462a160508e3fc3ad9672a914cc3f4b67e781f114d93f35554c02a23dd73f415f5c0bfbf6c83f62410b1897bede3f6380a24605c2e63f11ea2d819997713da807040c9a97713d2f6aeb0aacdc16403c"; "6cf8900b5ab03f81272d87e5c51a408c4a2ae28d9003405425217600650e402dba97f764021640f587bef1411801405870b263b970da3f"];
["504b0304140000000000000021005a64847d28020000280200000b00140072755f657870732e6e70790100100028020000000000002802000000000000934e554d5059010076007b276465736372273a"; "20273c6638272c2027666f727472616e5f6f72646572273a2046616c73652c20277368617065273a202835332c292c207d20202020202020202020202020202020202020202020202020202020202020"; "202020202020202020202020202020202020202020202020202020200ab6147d1ff97f294154ca4f15f97f294179f64073f87f29412f667326e37f294166a5bb1350921141c82d7caa67741141656fa8"; "477f6811419f762a68a3d6f24025d50f8f93d6f240550ca8f61b3ac74054754633c16ebf400c7c91542a20b8406fe582b8fb46ad404b39741ea343a2406633285bd21d97409d19308516bc8b40a829ef"; "2749c06d40ad76349ee1b661408e2937711fde5940c5b4257a80f25540dcebb821e2182b40dcd5d19fc4842840a8ea10a98228294049b19dc5b8ac284095176a0e0cbeba3fd9f97e582678d43f649d02"; "05a83ed43fe33ca8c888b1ac3f91292f718672b43f6e06260b21fea13fbe8547d90598713d7c1a4a4ee78d14415f84fc9dc4fef6402274a08fc4fef64029b7cca42f8ad840a2487b05c389d8401e4b0e"; "32d364c2403f8fd674f1d0b54052c0908737aea740f7169f80c0c59a404f80f00dda5d8b40d5a7b27dcc6671402b7820b026fd6340d50973dcb8475b40fa4ee28bd4353a406eccaefb08db36403a761f"; "a53b5b2a4098bbc1a773592a407ad87a3da50c054000a0e26339f80440f927d1499389f73f3ba6d8aac6aee93fea305d012374ca3f"];
["504b0304140000000000000021006cd3439f88000000880000000c00140072685f6e756d5f732e6e70790100100088000000000000008800000000000000934e554d5059010076007b27646573637227"; "3a20273c6938272c2027666f727472616e5f6f72646572273a2046616c73652c20277368617065273a2028292c207d202020202020202020202020202020202020202020202020202020202020202020"; "20202020202020202020202020202020202020202020202020202020200a2000000000000000"];
["504b030414000000000000002100758e6e5288000000880000000c00140072685f6e756d5f702e6e70790100100088000000000000008800000000000000934e554d5059010076007b27646573637227"; "3a20273c6938272c2027666f727472616e5f6f72646572273a2046616c73652c20277368617065273a2028292c207d202020202020202020202020202020202020202020202020202020202020202020"; "20202020202020202020202020202020202020202020202020202020200a1500000000000000"];
["504b030414000000000000002100a6afb18f28020000280200000d00140072685f636f656666732e6e70790100100028020000000000002802000000000000934e554d5059010076007b276465736372"; "273a20273c6638272c2027666f727472616e5f6f72646572273a2046616c73652c20277368617065273a202835332c292c207d2020202020202020202020202020202020202020202020202020202020"; "2020202020202020202020202020202020202020202020202020202020200ac01ded189896763eb2cfa9f3f3bc843ec7435f493ce3743e11f09a7fac97713ddbb08f18fab14a3f114edef8ec97713d11"; "ea2d819997713d660a62674299713d11ea2d819997713d11ea2d819997713dcab908f821f0b03fd7ff9c0ad497713d74526cf9bcb1d23f11ea2d819997713d11ea2d819997713d11ccd51ca897713df7"; "d6c7feb259a63f11189f877798713d21356f80ab94dd3f11ea2d819997713d90d9af861ce5154092f8d266bc98f03f16bf3ab9d3e2f53f41552ec2421bf53f11ea2d819997713d88d02c81cfc8e03fe8"; "7dbb64db02f63f077fad8e6dbbe73f0cf94ef686f4c43f829e58ac536ab13fbeb29884069faf3fec3e7cee27c16f3f0edba576d32a4b3ff341e16d8b4e623faee7ecb99a97713d111a79e39e97713d11"; "aa6301a297713d13640329c6f0cc3f8e5277f1bd79db3f2d0025464066df3f540d4910eda4d23fb106bf706554e33f01954e5ae786ec3f11ea2d819997713d7a11e8c370b1e33f278f51a4d1171440e9"; "02a120b1b7114081d41b5187550b4044deb107fa0307406351b8452ca11040380b72f58c9d1740124b1db367020240c191f8e70bd0d83f"];
["504b03041400000000000000210001c2966728020000280200000b00140072685f657870732e6e70790100100028020000000000002802000000000000934e554d5059010076007b276465736372273a"; "20273c6638272c2027666f727472616e5f6f72646572273a2046616c73652c20277368617065273a202835332c292c207d20202020202020202020202020202020202020202020202020202020202020"; "202020202020202020202020202020202020202020202020202020200aad70bf7337047341b956e771370473415e3a4070370473419689e4ed3ef60b41f5a2e3ed3ef60b41800955ef3ef60b417744d4"; "ed3ef60b4141d8c3ed3ef60b41af558f3ed719f540930cdf72c419f540812e00c62dedc840c2788af18695be40e521c15693afb8401e2d3e3adfd6ad40f0bd298fba95a240adbe7aeb01149740727668"; "81f5d28c40390a610caf806e40b324d719139f6140af8f56053b955a40071ed452a1ac5640ffa21175c2222c40665a4024d95b2c4012bbf899fbe32b4078e5dfa28ed629405200a4679482b83faa1b19"; "55a620d43fb28291ebd945d43f08c4c99161d8d43f294994fb68d4ab3fe1e00b753db3b03f021a1c0d4db0a13ffe2af27490e9f8402b348c0c90e9f840ec6cd8d9c8dada405c2c06534edada4092e6c4"; "0efe62c3409140572cbb46b5401bc5a3d5bc02a840c9a0350a14559a400dd8eed829c28a405ae799ce7b7d7240470cbe22b18665403dbb166e43bb5d4057c4d4a2979c3940f4d78136dc05394084940d"; "7c180e2d40376cda5d08192d407349928bec180640827fe15ca01b06405359d5db833ef83f8a5383efe0ede93f60e3c169c180c93f"];
["504b030414000000000000002100c0958b8188000000880000000c00140070645f6e756d5f732e6e70790100100088000000000000008800000000000000934e554d5059010076007b27646573637227"; "3a20273c6938272c2027666f727472616e5f6f72646572273a2046616c73652c20277368617065273a2028292c207d202020202020202020202020202020202020202020202020202020202020202020"; "20202020202020202020202020202020202020202020202020202020200a1d00000000000000"];
["504b0304140000000000000021009689e1dc88000000880000000c00140070645f6e756d5f702e6e70790100100088000000000000008800000000000000934e554d5059010076007b27646573637227"; "3a20273c6938272c2027666f727472616e5f6f72646572273a2046616c73652c20277368617065273a2028292c207d202020202020202020202020202020202020202020202020202020202020202020"; "20202020202020202020202020202020202020202020202020202020200a1600000000000000"];
["504b0304140000000000000021006c9aafbc18020000180200000d00140070645f636f656666732e6e70790100100018020000000000001802000000000000934e554d5059010076007b276465736372"; "273a20273c6638272c2027666f727472616e5f6f72646572273a2046616c73652c20277368617065273a202835312c292c207d2020202020202020202020202020202020202020202020202020202020"; "2020202020202020202020202020202020202020202020202020202020200a11ea2d819997713d2758b28976378c3edecc4489c728723d1b65c30f944b433f0a91e9142739723d32c3e6e10040723d91"; "d46822f932283f4d191f78a9c1243f11ea2d819997713d87ca06b59c97713dde94cc75aa79ac3f11ea2d819997713d83bf7de52502d23fecc4eef80598713d11ea2d819997713d52c78234b450d63f7b"; "f3e81f76e5c03f22dad6696ddbce3f11ea2d819997713d5b21cf28e297713d7b657948313b154039b4df44e4b2d43f727e8c024b7fe33fcf747ba9d168e03f11ea2d819997713dd2fa6356f22adb3f4e"; "00383dc6430340466b60344c050340f8eddb5ff3bbfb3f27104e1b789b713d3c2c89cf85bb703f2ba1b74f5a71763f11ea2d819997713d11ea2d819997713d5662bd66e797713d96132d5aa13cc83fd5"; "a849730a53d43f131efc92900dd33f4965ecb6b59dd13f3878419a1cd2e73f207fd7fa6811f63f11ea2d819997713da3fcc9013c7b094027c4c7918ae303400cc88688ab601640473b61535532104001"; "b092873d7c0840a8e094bd41321240ac4f26db615e144093f5115782588b3fe99858e49251323f"];
["504b030414000000000000002100cd79ad4318020000180200000b00140070645f657870732e6e70790100100018020000000000001802000000000000934e554d5059010076007b276465736372273a"; "20273c6638272c2027666f727472616e5f6f72646572273a2046616c73652c20277368617065273a202835312c292c207d20202020202020202020202020202020202020202020202020202020202020"; "202020202020202020202020202020202020202020202020202020200afa978e8da00f7841b4d3f98ba00f7841f4208ba10b0d0e410149d2a10b0d0e41136695a10b0d0e41de068ea10b0d0e41d0f782"; "a10b0d0e412fda7da10b0d0e41eb0fea77b649f6406010d38ab449f6403bfbf58807eec84012383c5099adbd4008dc949ab49cb840d8ba1e4856b7ad40079e9265a0bca2406fcae62b7fd696408d1c7d"; "0859c78d4002c22732c78b6e40c7429a8ffcee6140ec487297d9df5b4035c036b4b27b56408999fee825782f40790fbd3cbef72e406aa5ba92f41630404bbcf855ed3dec3fe544c9980e00c43fb24d4a"; "927b1de33f123fca5d8826e33f91211d9decf2d23f7a4664947056fa4038c612437056fa40123115faaf2bdc4032fe8f8eaa2bdc40cf4555a75e2bdc40dac5f22e4fe4c340945789cec313b540115132"; "01114aa840380b89f6c4a699409123f2e88c3489404a7fab0737267340dac4b4d05f47664087fefdb2a0765f408cc58dd4faa13c40042a4b0a223e3c40ca8ca1aa8d593040425aa22f7c4330405bab50"; "5cb0a006403c4064794a8f06404766f20dee19f83f4643624b5a5fba3f708599192b54ad3f"];
["504b030414000000000000002100bd92aec388000000880000000c00140061675f6e756d5f732e6e70790100100088000000000000008800000000000000934e554d5059010076007b27646573637227"; "3a20273c6938272c2027666f727472616e5f6f72646572273a2046616c73652c20277368617065273a2028292c207d202020202020202020202020202020202020202020202020202020202020202020"; "20202020202020202020202020202020202020202020202020202020200a1f00000000000000"];
["504b030414000000000000002100758e6e5288000000880000000c00140061675f6e756d5f702e6e70790100100088000000000000008800000000000000934e554d5059010076007b27646573637227"; "3a20273c6938272c2027666f727472616e5f6f72646572273a2046616c73652c20277368617065273a2028292c207d202020202020202020202020202020202020202020202020202020202020202020"; "20202020202020202020202020202020202020202020202020202020200a1500000000000000"];
["504b0304140000000000000021008bdb8bf820020000200200000d00140061675f636f656666732e6e70790100100020020000000000002002000000000000934e554d5059010076007b276465736372"; "273a20273c6638272c2027666f727472616e5f6f72646572273a2046616c73652c20277368617065273a202835322c292c207d2020202020202020202020202020202020202020202020202020202020"; "2020202020202020202020202020202020202020202020202020202020200a8bfab2dad6d0513e3ccc18a2fe148b3e11ea2d819997713d1702d9058879413f3e044b81d1803a3f11ea2d819997713d19"; "89dfe19997713d0e005ffb9997713de18aa2f29997713dcebf6d290079ad3fd9c25221a197713d0c8f4a12ca36d03f11ea2d819997713da10fb6d85498713d3eb6d0342340e33f9ab459e2fde6de3fd0"; "5a86f25d3bd53f11ea2d819997713dc1ad72ceda97713d1e8fd54153fa134011ea2d819997713d11ea2d819997713d11ea2d819997713decbf08238cf3eb3fa784000842b2cb3f4531f8a65768ea3f62"; "300e12c000b33f51c0e17abf97713dc6c97bb7f42ce83f4750a4b46d5cc83f21bb99820231643f565c41ecd7bb703f05d355b2628a6f3f31ac5b58d797713d51b37b489b97713d11ea2d819997713d9a"; "1b9378ef12c53fc1e8e37cf6d9c83f118d1d142298713def693ffbc15acc3ff46d26927b64eb3f011efcbf0aaafa3f11ea2d819997713da848f99b0111184011ea2d819997713d0e1dcf84879f184053"; "560773d0a71140172d82dea7bb0d402ac35fadc9401340819f80d01e6a034018b8918f38b91a405193389dfb9d753f"];
["504b0304140000000000000021009b803f4720020000200200000b00140061675f657870732e6e70790100100020020000000000002002000000000000934e554d5059010076007b276465736372273a"; "20273c6638272c2027666f727472616e5f6f72646572273a2046616c73652c20277368617065273a202835322c292c207d20202020202020202020202020202020202020202020202020202020202020"; "202020202020202020202020202020202020202020202020202020200ac4e138ace35d7641341d76a8e35d7641121be324a5d20e41de6ded24a5d20e417b0fe224a5d20e41b79fec24a5d20e41cd40e3"; "c6ab2ef640baea668da42ef640a8de3baaa32ef64095768d6900ffc94058c14600cbf3bd40778609585ef5b840df4383f2f5d5ad406faef5dd45dea240608fb131686096408d96576c37188e4059c279"; "b80f926e40847881875d6062401311771ef6d15d4077bd403ef44c5640c77e4c5f5f973040ec8682939a0f31409da61e1e2be03040e3015fa6df01d63f2ecbef826ea0b53f53edb6777c09d63fd46be5"; "976307ab3fdeb41576ef7def3f06f5d565cc89c33f1efa58c7b777b63f9fe1f236fcc8a03fd4bb36f9355dfa402f5c87722764dc4077343b142264dc404205b4acc663dc40a26d3c99f702c4405f0e35"; "a53301b5404d5734b83b75a8400b8bad21a09a98401fcf0f216e9585406896e714a8687340261b5c66b99c6640e7bb4107f2f560402a36f074d1e93e406caa219ce50b384064e0b2d673aa31402d2b1e"; "b2dec0314052e4c14a1e93084048b2b86c709908400fce61e0b266eb3f8fe88ea2ca31fa3f83caa11bca6cbb3f"];
["504b030414000000000000002100bd92aec388000000880000000c00140063645f6e756d5f732e6e70790100100088000000000000008800000000000000934e554d5059010076007b27646573637227"; "3a20273c6938272c2027666f727472616e5f6f72646572273a2046616c73652c20277368617065273a2028292c207d202020202020202020202020202020202020202020202020202020202020202020"; "20202020202020202020202020202020202020202020202020202020200a1f00000000000000"];
["504b030414000000000000002100eb8ec49e88000000880000000c00140063645f6e756d5f702e6e70790100100088000000000000008800000000000000934e554d5059010076007b27646573637227"; "3a20273c6938272c2027666f727472616e5f6f72646572273a2046616c73652c20277368617065273a2028292c207d202020202020202020202020202020202020202020202020202020202020202020"; "20202020202020202020202020202020202020202020202020202020200a1400000000000000"];
["504b0304140000000000000021003432496718020000180200000d00140063645f636f656666732e6e70790100100018020000000000001802000000000000934e554d5059010076007b276465736372"; "273a20273c6638272c2027666f727472616e5f6f72646572273a2046616c73652c20277368617065273a202835312c292c207d2020202020202020202020202020202020202020202020202020202020"; "2020202020202020202020202020202020202020202020202020202020200a3109ef06bb97713d00ec2d819997713d165208126d3e923e11ea2d819997713d11ea2d819997713d1dba8c5aebd24c3f8a"; "7d7aaff3b4713d11ea2d819997713dd668cc0a9a97713d11ea2d819997713df5d717b80a46af3f11ea2d819997713d377c597eb4bad13f11ea2d819997713d8eea1717d997713dcb9530209e70e23f46"; "1af12f7358e43f0ed2ba4b9eefd23f745009ddd698713de6c76afeb397713de0bf87240bdc03408522cb6bbe97713ded08446aa897713d3cdcffb7af97713d796dce5b1f4df43fd731a7559995e63f75"; "49a17e60970640e0cb128d1c78e53f402b488942ded73f86534d717c3e9e3f419b9594b6ec303f7c6f737e08f56c3f11ea2d819997713d911f7ba9499d713d11ea2d819997713df6c5c675b297713db5"; "019719e681c63f2d01ac156379cb3f11ea2d819997713d4da65c4e9446df3f82b667bc3e54fa3f62fa00dcac32f33f5604c9c02e60fb3fee5f0b1b4d0c154028bbe747c9e91440dd1d514bfc35174055"; "7bf6cab0facb3f0f956c78f9c8104016413b90568c1440820c3ae3582f1740f00792ee90fbe63f"];
["504b030414000000000000002100e643c13218020000180200000b00140063645f657870732e6e70790100100018020000000000001802000000000000934e554d5059010076007b276465736372273a"; "20273c6638272c2027666f727472616e5f6f72646572273a2046616c73652c20277368617065273a202835312c292c207d20202020202020202020202020202020202020202020202020202020202020"; "202020202020202020202020202020202020202020202020202020200a43fdd07233557541697bfa7033557541d8f6526e33557541dba37c47df5e0f4173212228df5e0f41215fe234df5e0f4111f99f"; "5bdf5e0f4173bfcb830b82f640a130021a0382f6407c182f910182f6402211f9fbefd5cb40163ebf7fd25cbe40c04fb3fc594ab9405b4d0c1b3e03ae408fe6a9fe7d02a3400f9d6c66903c9640efa8fe"; "3858e28b40a564b29932776f409f3a6cde36e06240f2cfac48c1436040ccd3dbcae6335640ae0a0627b71e3140c84bd8396fc530401a8c68bd908d304060781590245fc23fe73ed52aa270e33f81abf8"; "484972e33ff97284c91a6fe33f27921c486177b53ff69dab0d2e35aa3fdafae9ab63999f3f16772511b3c7fa40f100d9a2c8e6dc408731f34ea9e6dc403d93dff8ffe5dc40ac5f490f983dc440159f01"; "fd49fcb440fec86fb0307aa840ddf47b6ca5e1974003d89b794e628140c3be80af2f537140331832cbc4616740e7028897abdb604059df4b31381f4140524611104d7a33401c2a81c19d7d3340a9af69"; "803646334047e83fccbcac0940d8efbc6094b60940017f265c51dbfa3f1696c7b9527bd53f"];
["504b0304140000000000000021002392040f88000000880000000c001400696e5f6e756d5f732e6e70790100100088000000000000008800000000000000934e554d5059010076007b27646573637227"; "3a20273c6938272c2027666f727472616e5f6f72646572273a2046616c73652c20277368617065273a2028292c207d202020202020202020202020202020202020202020202020202020202020202020"; "20202020202020202020202020202020202020202020202020202020200a1e00000000000000"];
["504b0304140000000000000021009689e1dc88000000880000000c001400696e5f6e756d5f702e6e70790100100088000000000000008800000000000000934e554d5059010076007b27646573637227"; "3a20273c6938272c2027666f727472616e5f6f72646572273a2046616c73652c20277368617065273a2028292c207d202020202020202020202020202020202020202020202020202020202020202020"; "20202020202020202020202020202020202020202020202020202020200a1600000000000000"];
["504b0304140000000000000021004ee8fc7e20020000200200000d001400696e5f636f656666732e6e70790100100020020000000000002002000000000000934e554d5059010076007b276465736372"; "273a20273c6638272c2027666f727472616e5f6f72646572273a2046616c73652c20277368617065273a202835322c292c207d2020202020202020202020202020202020202020202020202020202020"; "2020202020202020202020202020202020202020202020202020202020200a4e924c335299713d11ea2d819997713d11ea2d819997713d11ea2d819997713d2c10d95c344e4c3f11ea2d819997713d11"; "ea2d819997713dc8c4428d9fd7a53e87919496ebde143f9af078c75455bc3f0d2ade4aa497713d180e60a99d28b93f11ea2d819997713d11ea2d819997713d0d3c29e4281de63fe64724259592d33f11"; "ea2d819997713d9a20b2b7999e10406542a3518f53f23f51b250a4bd98713d0aadd7f5709a713d9a956d38db97713d11ea2d819997713d3b327f46ab8a8f3fe60873ac60dcb93f229712f8e60ee03f00"; "fb5feb7533b83f0fcbf0a86a9a2d3f74e3c89e9e97713d224422d59f8fdb3fa5cfa3e095636c3f08d7abc7510d593f11ea2d819997713d9cdc19bb4481ba3f4fe886112f2ecd3f437bb56449dfc63f90"; "0316aff297713d26c32084b497713dc7227bc4254cdd3fcb0aea708d00e43f17a50a47f34efa3f4d6cd2551cea134073e16e33644513408b77e159b9e212406e730cc6426f004099b0acb94f6613402a"; "c6d10220a215407340dc4246c51b406dcbb601e1670140a47793764a48ea3f49aeebb46c63f53fa975832cb4d0243f"];
["504b03041400000000000000210076b1659420020000200200000b001400696e5f657870732e6e70790100100020020000000000002002000000000000934e554d5059010076007b276465736372273a"; "20273c6638272c2027666f727472616e5f6f72646572273a2046616c73652c20277368617065273a202835322c292c207d20202020202020202020202020202020202020202020202020202020202020"; "202020202020202020202020202020202020202020202020202020200a39309d7848991041a392b178489910410754b47848991041ceffb07848991041c1b8ba7848991041cff52d2b8810f740f66450"; "4b8710f740961a45e38610f7408f6e19a58510f740034be9f321fdcd4042866b919747bf401f53e19fb7bfb94022546035fcb2ae40b3e109ea9e4ba340a7e1183501a796408eabb9d7529c8a40bffcb7"; "0a7704704073141a22ca306340c5406cb12f965d40a233748aeb1d3e40ba648eda5842354034d3283f40e03640e12568da3065364057fdf6f6393ba33f86c69d23aa41af3fa6375437dd60bb3f0e8717"; "3c1fa5ae3fb3906374afa7983f923c24c402a7e83f30e1172fd0e1b93ff2553d363da4fb401891f2248edddd405443ddcb75dcdd40ee50dc1603abc440aa55216e4bfdb440dd307bdcfcc6a8408b10e7"; "aa7f3198409b0e70e7613c8040e30ea4724ba47340ab14b0c7581c664058c662b2f8055d405595f3b592734240a22400a0cef53440537e4f94b4fa3440a22097bee40135400e0abff25fc00b405f40a3"; "fb5dc30b4021b34168f2fdfc3fc8a5f2ab68f4eb3f9d39045f2c57cc3f76b02a32a9c0d93f35839af7806f1040"];
["504b0304140000000000000021002392040f88000000880000000c001400736e5f6e756d5f732e6e70790100100088000000000000008800000000000000934e554d5059010076007b27646573637227"; "3a20273c6938272c2027666f727472616e5f6f72646572273a2046616c73652c20277368617065273a2028292c207d202020202020202020202020202020202020202020202020202020202020202020"; "20202020202020202020202020202020202020202020202020202020200a1e00000000000000"];
["504b0304140000000000000021009689e1dc88000000880000000c001400736e5f6e756d5f702e6e70790100100088000000000000008800000000000000934e554d5059010076007b27646573637227"; "3a20273c6938272c2027666f727472616e5f6f72646572273a2046616c73652c20277368617065273a2028292c207d202020202020202020202020202020202020202020202020202020202020202020"; "20202020202020202020202020202020202020202020202020202020200a1600000000000000"];
["504b03041400000000000000210091756b4520020000200200000d001400736e5f636f656666732e6e70790100100020020000000000002002000000000000934e554d5059010076007b276465736372"; "273a20273c6638272c2027666f727472616e5f6f72646572273a2046616c73652c20277368617065273a202835322c292c207d2020202020202020202020202020202020202020202020202020202020"; "2020202020202020202020202020202020202020202020202020202020200a621ab850975af73e51be8ee18e97a83d9c04380269e2b03db5ce399fbbb8ab3d770506e504a8683fcc8c3908041b673f7c"; "a7ad4beaef363f47638dda6406ec3e8df7c8cf61f5a13ea8ac11c396fc9c3fe93124ce416a763fcffbc715829cc63f11ea2d819997713d41812e231108dc3f1f34f6a3df63e33f8f3b326c100dd83fb1"; "a30037bd97713d2dd18b3bdf88124011ea2d819997713d11ea2d819997713d8be6f6a04999713d8bc0a0c6dd9d713d11ea2d819997713df8262917ec92aa3e0ad498acca97713d11ea2d819997713d11"; "ea2d819997713dec8252c728897b3f17cac4a74a8dc93f11ea2d819997713d96dd8aa08c26523fe7791162f120853f673d55ed3ba3a23f11ea2d819997713d0592f4ef7955ba3fc804185baf38723d11"; "ea2d819997713d6fb254735098713daa78cbfb8177e53fb6b7caba724de33fc79c30246eccff3f639a159df8901140da8faf3553f618403ba45093cec7174096e123c41630e53f6208fb5918351440ab"; "7c5b5bae80154046f9208cac051b400722f261a0c6fe3f348b1a7f3114ff3fa422bcf402f9f53f0d0595b809cadc3f"];
["504b030414000000000000002100f615001620020000200200000b001400736e5f657870732e6e70790100100020020000000000002002000000000000934e554d5059010076007b276465736372273a"; "20273c6638272c2027666f727472616e5f6f72646572273a2046616c73652c20277368617065273a202835322c292c207d20202020202020202020202020202020202020202020202020202020202020"; "202020202020202020202020202020202020202020202020202020200aa0b7d29fc171414138cbd29fc1714141f556d59fc1714141e7b9d29fc171414121241998168bf140aeabbf90168bf14086fe00"; "57168bf14026fec3d9168bf140a191d0ea168bf14057fd24e5e503d640f0cbca0b9da6c740312c31989454bb4054946839c218b04033ee552195cda3409e8d3921cf28974072bfdeda7aa389402d2ea5"; "b4fd897040beb0ac1e6db96340a11d4ad833a06140bb21ed1cfb6740406b42e32533d73540ae36910b313137400de1202243223740bf26689fa097713d2d6551dea697d13f11d07bf816e0ca3f1292e2"; "6f7715f73fe797678aac0ba63fdbc5be23cf7cb23fe1c3461c59e5d63f3bc6424034b0de40412a40ca35b0de404d1dc347d74ac940720cba8914e1c340f439d3f97feeb4409984933ed618a940fcc5d9"; "72504d9940a1f2bad53b8680403c7ead593a677440216ded59d1ec6640a323e20f1f1b6040daf05618dd6944404514d71ab4c1364009f8793cfdd5364016ae8358d47c0d40ac67e0e8ef7b0d408e3925"; "4e7a780d40858f3683ca9afe3f9ef28aee656feb3fde44d0931421da3f3fd4ec8a686ecd3f3f7063693d9bc13f"];
["504b0304140000000000000021002392040f88000000880000000c00140073625f6e756d5f732e6e70790100100088000000000000008800000000000000934e554d5059010076007b27646573637227"; "3a20273c6938272c2027666f727472616e5f6f72646572273a2046616c73652c20277368617065273a2028292c207d202020202020202020202020202020202020202020202020202020202020202020"; "20202020202020202020202020202020202020202020202020202020200a1e00000000000000"];
["504b0304140000000000000021009689e1dc88000000880000000c00140073625f6e756d5f702e6e70790100100088000000000000008800000000000000934e554d5059010076007b27646573637227"; "3a20273c6938272c2027666f727472616e5f6f72646572273a2046616c73652c20277368617065273a2028292c207d202020202020202020202020202020202020202020202020202020202020202020"; "20202020202020202020202020202020202020202020202020202020200a1600000000000000"];
["504b0304140000000000000021002087013420020000200200000d00140073625f636f656666732e6e70790100100020020000000000002002000000000000934e554d5059010076007b276465736372"; "273a20273c6638272c2027666f727472616e5f6f72646572273a2046616c73652c20277368617065273a202835322c292c207d2020202020202020202020202020202020202020202020202020202020"; "2020202020202020202020202020202020202020202020202020202020200a1c6b34d89c28c53ec3e871fc6db9ea3e0e7f0be89a68b73ede5695f3316e123e1f7970e5950b653f730cb425609e653f55"; "461fd4d9b48f3e21d3f74ff2562c3fcdeae6b058abec3e5bbbac02d2fb093f61c93d34b7b39b3fefc906fc59b69b3f481581a0a5ecc73fb13b2ef12c9b713dd8eced7fa9badc3f82c88b448624e43fca"; "266d44f6d6d73f3df9e81de39f713de60232360ebe1140f19992f98d10403efa7d5eace597713d7f2b24b0579c713dec3ba2bb1998713d128011bc9997713d2dfcdf4392f0ad3ff0a0c473a297713d56"; "93e33574acce3e641f829b5f1d3b3f5c0818833478eb3f305b4b0d9a97713d5fae4b9a5537fc3e26dc9ac37974803fb7687dc5bc9b9a3f11ea2d819997713d6176933330aab93f546b07831f9f713d2a"; "f2b8287b98713da0f7f6009a97713d99275580eb63eb3ff267def3c6b4c63fdd6e1ef25f7802406cd020ed21d30e402f46dd18ff6f1b40c4c3b1d6567d1740f22e326c02a3fa3f138d7e40c1b71440dc"; "8c5441173a1440ff4bc552966319407ebf91e3dbe7fe3f12f6566af2ac0340ab09fa5c9bfcf33f8c6480bae262bc3e"];
["504b0304140000000000000021009079950a20020000200200000b00140073625f657870732e6e70790100100020020000000000002002000000000000934e554d5059010076007b276465736372273a"; "20273c6638272c2027666f727472616e5f6f72646572273a2046616c73652c20277368617065273a202835322c292c207d20202020202020202020202020202020202020202020202020202020202020"; "202020202020202020202020202020202020202020202020202020200aec66879bc7c24641ca68879bc7c24641ea66879bc7c24641bf66879bc7c2464172e036ad1c0cf340c2f323981c0cf3407466e8"; "a81c0cf34082e018ab1c0cf3408694b7a61c0cf34085605bab1c0cf3404fbcca7941e1d5405a65c1be83a6c540c39bf548201dbb400afc329d852ab04020999250982ea4404678628ab35b974044d890"; "ceb3208840ee83b855a5967040c5a9a747a088644045f5051eb0036240e433383fad484340df1de475fc5f3640a79bc66d9c9437403fe74ff0f31336404eb68de94125b23f78b0bd6734a7b63f523ece"; "7dbf97713dbd5b090cc7e2a43f04f036532aa7be3f3cc8ed4f997be23f4f0597e7b093e040ad6cac23b093e04077e0548323a8c840117ad70704cac4401439553e39eeb440a1d1c70e5b7ba940f78478"; "f6e01c9a40ad4a3930158f8040dfb2ff5c2393744035d65c3386db674023f25b46050162403bb653767caa4640191d333b41a9384033541f7bb3b83840c2172c05d54c0f409a7fd8a7644c0f400cc8e9"; "a0a74a0f40a4f3797823330040e18fc93afadee93f3513b0cbd062da3fa91f8cb3636cce3f5e5ebebb6655f23f"];
["504b0304140000000000000021002392040f88000000880000000c00140074655f6e756d5f732e6e70790100100088000000000000008800000000000000934e554d5059010076007b27646573637227"; "3a20273c6938272c2027666f727472616e5f6f72646572273a2046616c73652c20277368617065273a2028292c207d202020202020202020202020202020202020202020202020202020202020202020"; "20202020202020202020202020202020202020202020202020202020200a1e00000000000000"];
["504b03041400000000000000210008894b1088000000880000000c00140074655f6e756d5f702e6e70790100100088000000000000008800000000000000934e554d5059010076007b27646573637227"; "3a20273c6938272c2027666f727472616e5f6f72646572273a2046616c73652c20277368617065273a2028292c207d202020202020202020202020202020202020202020202020202020202020202020"; "20202020202020202020202020202020202020202020202020202020200a1700000000000000"];
["504b030414000000000000002100feccbf7528020000280200000d00140074655f636f656666732e6e70790100100028020000000000002802000000000000934e554d5059010076007b276465736372"; "273a20273c6638272c2027666f727472616e5f6f72646572273a2046616c73652c20277368617065273a202835332c292c207d2020202020202020202020202020202020202020202020202020202020"; "2020202020202020202020202020202020202020202020202020202020200af6e5bd3157ad7a3ecfdff556cc026a3e971b038163b94e3ff64797c6eccddc3eac2285759b50273f703f200c0458033fde"; "4e6aa133447e3d061eb4f19a97713db2323b5b9a97713dff13fd262b77a73f11ea2d819997713dabd930659b97713dbad468f97bf2d23f65b865802a9c713d7467bb5f1bbad83ff9ac98723da9e23f94"; "05b396eb67e53f14fa997da2de713d48f63302e4c8ff3fa67271774b67d33f80dfb515479a713db2919f728398713d36d8d8664c99713d58ed5f651e99713d466edb6c7798713d32feb61bdf36d33fcd"; "2db0602186083fff26550296122a3f5c0c896ee4afdb3f390e9a97c497713da2323adb7403773f06cd0b7e1781263f1e11acc17cca8d3f4457907ca197713d23ebd297c697713d7a9c52f89ee5b03f71"; "7c27d0109bb33f1323bc259a97713dcf504cfc97b6cf3fac05bb24df97fb3f4ac57bc48c98713d43d1b074c1fc0840f6ae8fb8f6f70a406a6459a9af4e22406de6fc83644d1040167431bc5af604408b"; "412814dc1215405a6df92ff1311340cb57a502022a1740bb63391016af03400e045683bc620740b47caa011e2ef43f779059bf8d178b3f"];
["504b03041400000000000000210071d4ef4e28020000280200000b00140074655f657870732e6e70790100100028020000000000002802000000000000934e554d5059010076007b276465736372273a"; "20273c6638272c2027666f727472616e5f6f72646572273a2046616c73652c20277368617065273a202835332c292c207d20202020202020202020202020202020202020202020202020202020202020"; "202020202020202020202020202020202020202020202020202020200a6dfd5330e73385412e643c2ee73385415835172fc1fb1241770d282fc1fb1241044f0e2fc1fb1241cb26e62ec1fb124159b6fb"; "2ec1fb1241d72c96af8dd4fc4045e8b9378dd4fc405a953c8a3031cc4006694a904350ca40711b39b88c3fc140bec30c1c9458b840d4856ff92959af40b438c7e9c710a44071560a2b087a97405ecd9c"; "c9e94e864079724554f7937040ccb0ee90157d65403b3b64c1c1016240bc6b2d5a97eb3a400485daa0adaf394088b70ba966173a4052561131aff73840425b83cce27fc83fe0249527e9debe3f1a81af"; "ea21cb1c40168b0104fa27a53f6a05b1d922e7be3f692d1baf0917d33ff6e27d6270f200419493feb56a9be140fafad2ee6a9be1408986d995cf6dc94048aa67dc12ccc540f23bf3bd1062b540923043"; "1b70d1a940e8a426fb20a59a404278f692f3868040fb7ce033596374409808edba04a06840aaa12c5bd67164408207e286104b494063b7c16375a73a40735f589593a53a40fd43266db79e104034d619"; "86039c104012ca0121109f1040e499fca1b9340140a786d287b0dce83f25f0adf4c2d1da3f7e94d6824c02cf3f8b6273acfcaab43f"];
["504b0304140000000000000021002392040f88000000880000000b001400695f6e756d5f732e6e70790100100088000000000000008800000000000000934e554d5059010076007b276465736372273a"; "20273c6938272c2027666f727472616e5f6f72646572273a2046616c73652c20277368617065273a2028292c207d20202020202020202020202020202020202020202020202020202020202020202020"; "202020202020202020202020202020202020202020202020202020200a1e00000000000000"];
["504b0304140000000000000021009689e1dc88000000880000000b001400695f6e756d5f702e6e70790100100088000000000000008800000000000000934e554d5059010076007b276465736372273a"; "20273c6938272c2027666f727472616e5f6f72646572273a2046616c73652c20277368617065273a2028292c207d20202020202020202020202020202020202020202020202020202020202020202020"; "202020202020202020202020202020202020202020202020202020200a1600000000000000"];
["504b030414000000000000002100dd4130b920020000200200000c001400695f636f656666732e6e70790100100020020000000000002002000000000000934e554d5059010076007b27646573637227"; "3a20273c6638272c2027666f727472616e5f6f72646572273a2046616c73652c20277368617065273a202835322c292c207d202020202020202020202020202020202020202020202020202020202020"; "20202020202020202020202020202020202020202020202020202020200a2c5070c1be44573ec65cae8b276f843eb4b029e89a8e543f11ea2d819997713d11ea2d819997713d1192636ef59e713d11ea"; "2d819997713d22c1f0ea9b97713d2ae0ceb19a97713dbb4028ad3765a73f11ea2d819997713d1102f5adb197713db4e5acc9175fd93fbd3b47f57d1dca3f11ea2d819997713d11ea2d819997713d30ad"; "1c95c797713df4c32da1940704405241f4904299713d11ea2d819997713d11ea2d819997713d46daa53163c4144075d9c1b8cd53bf3f11ea2d819997713d11ea2d819997713d37ce62046cb9034011ea"; "2d819997713d11ea2d819997713da1f351fba7589d3f1bf35f1decd8d33fef0279acc0da783f552d34a4a687903f11ea2d819997713d11ea2d819997713d11ea2d819997713d61ab80ce2f8fbb3ff614"; "74a5c2e3dd3f2214b05dda45dd3f9f2c97fec3ffcf3f247671dad298de3f5e4b3fed44110b401c32f363c198713d3fd78e660d680c406fcbae7661221540f9be39edd9c70c4070af3df823470940566b"; "3142cb361640a7379f032af81240dd095d7f690e1440ecaaf0f64dab08408b988623609e044027998bcdb9ac603f"];
["504b030414000000000000002100e686e35720020000200200000a001400695f657870732e6e70790100100020020000000000002002000000000000934e554d5059010076007b276465736372273a20"; "273c6638272c2027666f727472616e5f6f72646572273a2046616c73652c20277368617065273a202835322c292c207d2020202020202020202020202020202020202020202020202020202020202020"; "2020202020202020202020202020202020202020202020202020200ab16472813d978341c47736803d97834156101061da0313416ebc615fda0313418941be5eda0313412dd6925fda0313416896585f"; "da0313412e18c848ffe4fc4078d7f4bffee4fc406ff1561e398bcc40ea9d37edc4a0ca4015d9a7778571c140d04356959873b84098eab01449b1af405cfd41ed2942a440885acf8311d2974083693a83"; "cd9684402c4e162bfd5d70400fda33ba6056664085a7b7518a3662400de29262e5783d40dc30e069dcb94040a6daeebbbb9b3f40f652de3f97b53e407b7a926c2b6de93f3dc4d84e99f7c83f32ff946d"; "78b9f23f900d301ca1c6d63fdfb0552165efc83f7ee3efee917bbc3f2450197d6dfc004156cdfe2199b4e140d79bdcce96b4e1400e94297b9db7c9402f66204a89e8c5408aec37c3ba96b5407175aed3"; "3ef3a94063ca6a5339ee9a40322c8ef962838040a15bc9974e4f74408285365ffdbb68408a9632123773674011bb7a3578293c4002283fc3483f3c407f4c3b8a16703c401e2b4b6e1a9c1140fbdcd493"; "509d1140df4def14a49e11400e50c5dd034202409196d7dcb55de83f0b2489791bd5da3f481c035230e2b23f"];
["504b030414000000000000002100bd92aec388000000880000000c00140078655f6e756d5f732e6e70790100100088000000000000008800000000000000934e554d5059010076007b27646573637227"; "3a20273c6938272c2027666f727472616e5f6f72646572273a2046616c73652c20277368617065273a2028292c207d202020202020202020202020202020202020202020202020202020202020202020"; "20202020202020202020202020202020202020202020202020202020200a1f00000000000000"];
["504b0304140000000000000021009689e1dc88000000880000000c00140078655f6e756d5f702e6e70790100100088000000000000008800000000000000934e554d5059010076007b27646573637227"; "3a20273c6938272c2027666f727472616e5f6f72646572273a2046616c73652c20277368617065273a2028292c207d202020202020202020202020202020202020202020202020202020202020202020"; "20202020202020202020202020202020202020202020202020202020200a1600000000000000"];
["504b030414000000000000002100c9bae29928020000280200000d00140078655f636f656666732e6e70790100100028020000000000002802000000000000934e554d5059010076007b276465736372"; "273a20273c6638272c2027666f727472616e5f6f72646572273a2046616c73652c20277368617065273a202835332c292c207d2020202020202020202020202020202020202020202020202020202020"; "2020202020202020202020202020202020202020202020202020202020200a8486f1180e03813d72bb532fbecbeb3d80d3d65a70348b3efba3c639f1bfc63e3143ef4e2f11b13e67b0e1ee8239ab3e32"; "85e8c3e1e41e3fcd2b3833845c533fa38ff1b99b97713df6b6cf629b97713da8e993ad4e38a93f8293a3079a97713d6bcd47aa9997713d7577c454ad34da3f708dace97363ca3f16e813ab27a6713d00"; "1461c49a97713de9bf08a1a097713d3e11f0eda747803ed9eede5fa47b11407bd92182f3c7713d1f85cd7ddec90240311d69fe0cfaf33f8d00cc5ff42b074015ae7440219f713df673a0a5d097713d55"; "c6eac3e866da3feb5ff5939752833f776d07430909203f66d4ab62f0d7e43ed155bfbd26da873e55e416b8d59e793f4dca385d91a9923edce2c0890580903f11ea2d819997713db62acd3e770a6f3e4b"; "3ad1bec1d0bc3f3c93b0ea176dde3f6b1137df5c73dc3fd2eed7764d64d63f2f78f6a42e58d23faf6817ceef20e43fa574ece4b355f13ff4b99506d1e6f43f3a62cca4058d2340fb4548cf5499713d70"; "e99058ef9c1f4082e88d512dbc194040022e19682b11409a2730d388d70c40a7a49f56fad0104001da1c7d77f8f13f42eee8e81ff1773e"];
["504b030414000000000000002100d4008e2f28020000280200000b00140078655f657870732e6e70790100100028020000000000002802000000000000934e554d5059010076007b276465736372273a"; "20273c6638272c2027666f727472616e5f6f72646572273a2046616c73652c20277368617065273a202835332c292c207d20202020202020202020202020202020202020202020202020202020202020"; "202020202020202020202020202020202020202020202020202020200a638537e6656182412fd646e5656182416501ace465618241614f04b858361341c9e799b75836134162831bb858361341331578"; "bb58361341cda7e6ab59361341a4e8146e602efd4004bfdec65f2efd40073f0744ed2dcd40c210a7a3d323cb40b3923b4561c2c14095aea0f5e5abb840f0d860658305b0405ce4ba12147aa440690ccd"; "cf353298407f9241ad5b1b834035fbfb642ba77040b61a530e8f1467407ae36a3a0cd76240b89ff8b293df3d40d6b6786a83d53d40e5c8b3e7ce723c40a439429a648b3a404293505fe498f13f0dc915"; "9cf0f1c03f0433d6bef500b43fab117c829997713d71141afffbebe83fd62e9961e9a6713d059ae4b37329014134e944d7ddeee1401564fbe100efe140ac26fd5dc238ca40ba7b9e963d09c640f16d74"; "0729ccb5405f2035d02509aa40926d025fc10d9b4076057c6321588040a219330870db7340d020ec998b0e6c40d85f0f73ca726640b93b8ce43a513e405a4673374bf43d40350162f56e393c40af3605"; "e96da512400ec7fd85069f1240a852bc7c3d0703406bbb24577b6cdc3f4c9f2da9e0aae93fa8f35c78da86d03f6890bc790dc7d73f"]].
Definition slsqp_records : list (list string) := [
["504b0102140314000000000000002100eb8ec49e88000000880000000b0000000000000000000000800100000000685f6e756d5f732e6e7079"];
["504b01021403140000000000000021003ab1356688000000880000000b00000000000000000000008001c5000000685f6e756d5f702e6e7079"];
["504b01021403140000000000000021008564832f20010000200100000c000000000000000000000080018a010000685f636f656666732e6e7079"];
["504b0102140314000000000000002100ea8923db20010000200100000a00000000000000000000008001e8020000685f657870732e6e7079"];
["504b0102140314000000000000002100758e6e5288000000880000000c000000000000000000000080014404000068655f6e756d5f732e6e7079"];
["504b01021403140000000000000021003ab1356688000000880000000c000000000000000000000080010a05000068655f6e756d5f702e6e7079"];
["504b0102140314000000000000002100d30e43b728010000280100000d00000000000000000000008001d005000068655f636f656666732e6e7079"];
["504b01021403140000000000000021003632b0be28010000280100000b000000000000000000000080013707000068655f657870732e6e7079"];
["504b01021403140000000000000021003a9bc10588000000880000000c000000000000000000000080019c0800006c695f6e756d5f732e6e7079"];
["504b01021403140000000000000021003ab1356688000000880000000c00000000000000000000008001620900006c695f6e756d5f702e6e7079"];
["504b010214031400000000000000210083ed068f48010000480100000d00000000000000000000008001280a00006c695f636f656666732e6e7079"];
["504b0102140314000000000000002100eb2247aa48010000480100000b00000000000000000000008001af0b00006c695f657870732e6e7079"];
["504b01021403140000000000000021003a9bc10588000000880000000c00000000000000000000008001340d000062655f6e756d5f732e6e7079"];
["504b01021403140000000000000021003ab1356688000000880000000c00000000000000000000008001fa0d000062655f6e756d5f702e6e7079"];
["504b010214031400000000000000210049dd9c8248010000480100000d00000000000000000000008001c00e000062655f636f656666732e6e7079"];
["504b01021403140000000000000021006953374a48010000480100000b000000000000000000000080014710000062655f657870732e6e7079"];
["504b01021403140000000000000021003a9bc10588000000880000000b00000000000000000000008001cc110000625f6e756d5f732e6e7079"];
["504b010214031400000000000000210096a315bf88000000880000000b0000000000000000000000800191120000625f6e756d5f702e6e7079"];
["504b01021403140000000000000021006a81ff0ec0010000c00100000c0000000000000000000000800156130000625f636f656666732e6e7079"];
["504b01021403140000000000000021008c75918fc0010000c00100000a0000000000000000000000800154150000625f657870732e6e7079"];
["504b010214031400000000000000210008894b1088000000880000000b0000000000000000000000800150170000635f6e756d5f732e6e7079"];
["504b010214031400000000000000210096a315bf88000000880000000b0000000000000000000000800115180000635f6e756d5f702e6e7079"];
["504b0102140314000000000000002100f3816dfdb0010000b00100000c00000000000000000000008001da180000635f636f656666732e6e7079"];
["504b0102140314000000000000002100c91ae4dcb0010000b00100000a00000000000000000000008001c81a0000635f657870732e6e7079"];
["504b010214031400000000000000210008894b1088000000880000000b00000000000000000000008001b41c00006e5f6e756d5f732e6e7079"];
["504b010214031400000000000000210011808e1a88000000880000000b00000000000000000000008001791d00006e5f6e756d5f702e6e7079"];
["504b01021403140000000000000021008a82fdc8b8010000b80100000c000000000000000000000080013e1e00006e5f636f656666732e6e7079"];
["504b010214031400000000000000210011c8f454b8010000b80100000a00000000000000000000008001342000006e5f657870732e6e7079"];
["504b010214031400000000000000210008894b1088000000880000000b00000000000000000000008001282200006f5f6e756d5f732e6e7079"];
["504b010214031400000000000000210011808e1a88000000880000000b00000000000000000000008001ed2200006f5f6e756d5f702e6e7079"];
["504b0102140314000000000000002100d2803f05b8010000b80100000c00000000000000000000008001b22300006f5f636f656666732e6e7079"];
["504b0102140314000000000000002100b0da235cb8010000b80100000a00000000000000000000008001a82500006f5f657870732e6e7079"];
["504b0102140314000000000000002100a49b6bc988000000880000000b000000000000000000000080019c270000665f6e756d5f732e6e7079"];
["504b010214031400000000000000210011808e1a88000000880000000b0000000000000000000000800161280000665f6e756d5f702e6e7079"];
["504b010214031400000000000000210040aa4145c0010000c00100000c0000000000000000000000800126290000665f636f656666732e6e7079"];
["504b01021403140000000000000021005df59d58c0010000c00100000a00000000000000000000008001242b0000665f657870732e6e7079"];
["504b010214031400000000000000210008894b1088000000880000000c00000000000000000000008001202d00006e655f6e756d5f732e6e7079"];
["504b010214031400000000000000210011808e1a88000000880000000c00000000000000000000008001e62d00006e655f6e756d5f702e6e7079"];
["504b01021403140000000000000021009db365c0b8010000b80100000d00000000000000000000008001ac2e00006e655f636f656666732e6e7079"];
["504b010214031400000000000000210070609167b8010000b80100000b00000000000000000000008001a33000006e655f657870732e6e7079"];
["504b0102140314000000000000002100479ce44788000000880000000c00000000000000000000008001983200006e615f6e756d5f732e6e7079"];
["504b010214031400000000000000210011808e1a88000000880000000c000000000000000000000080015e3300006e615f6e756d5f702e6e7079"];
["504b010214031400000000000000210016d7a268d8010000d80100000d00000000000000000000008001243400006e615f636f656666732e6e7079"];
["504b0102140314000000000000002100f7e269f5d8010000d80100000b000000000000000000000080013b3600006e615f657870732e6e7079"];
["504b0102140314000000000000002100479ce44788000000880000000c00000000000000000000008001503800006d675f6e756d5f732e6e7079"];
["504b010214031400000000000000210011808e1a88000000880000000c00000000000000000000008001163900006d675f6e756d5f702e6e7079"];
["504b0102140314000000000000002100686f5935d8010000d80100000d00000000000000000000008001dc3900006d675f636f656666732e6e7079"];
["504b0102140314000000000000002100001762e2d8010000d80100000b00000000000000000000008001f33b00006d675f657870732e6e7079"];
["504b0102140314000000000000002100479ce44788000000880000000c00000000000000000000008001083e0000616c5f6e756d5f732e6e7079"];
["504b0102140314000000000000002100f287019488000000880000000c00000000000000000000008001ce3e0000616c5f6e756d5f702e6e7079"];
["504b0102140314000000000000002100c5044c7ff0010000f00100000d00000000000000000000008001943f0000616c5f636f656666732e6e7079"];
["504b0102140314000000000000002100c6adf9d9f0010000f00100000b00000000000000000000008001c3410000616c5f657870732e6e7079"];
["504b0102140314000000000000002100479ce44788000000880000000c00000000000000000000008001f043000073695f6e756d5f732e6e7079"];
["504b0102140314000000000000002100f287019488000000880000000c00000000000000000000008001b644000073695f6e756d5f702e6e7079"];
["504b0102140314000000000000002100bf60dbc0f0010000f00100000d000000000000000000000080017c45000073695f636f656666732e6e7079"];
["504b010214031400000000000000210045cf5daaf0010000f00100000b00000000000000000000008001ab47000073695f657870732e6e7079"];
["504b0102140314000000000000002100479ce44788000000880000000b00000000000000000000008001d8490000705f6e756d5f732e6e7079"];
["504b0102140314000000000000002100f287019488000000880000000b000000000000000000000080019d4a0000705f6e756d5f702e6e7079"];
["504b01021403140000000000000021008b10181ef0010000f00100000c00000000000000000000008001624b0000705f636f656666732e6e7079"];
["504b01021403140000000000000021001b06072ef0010000f00100000a00000000000000000000008001904d0000705f657870732e6e7079"];
["504b0102140314000000000000002100479ce44788000000880000000b00000000000000000000008001bc4f0000735f6e756d5f732e6e7079"];
["504b0102140314000000000000002100f287019488000000880000000b0000000000000000000000800181500000735f6e756d5f702e6e7079"];
["504b010214031400000000000000210093e6a379f0010000f00100000c0000000000000000000000800146510000735f636f656666732e6e7079"];
["504b0102140314000000000000002100d34c7f25f0010000f00100000a0000000000000000000000800174530000735f657870732e6e7079"];
["504b0102140314000000000000002100479ce44788000000880000000c00000000000000000000008001a0550000636c5f6e756d5f732e6e7079"];
["504b0102140314000000000000002100f287019488000000880000000c0000000000000000000000800166560000636c5f6e756d5f702e6e7079"];
["504b0102140314000000000000002100235b1f39f0010000f00100000d000000000000000000000080012c570000636c5f636f656666732e6e7079"];
["504b010214031400000000000000210023a79c4bf0010000f00100000b000000000000000000000080015b590000636c5f657870732e6e7079"];
["504b0102140314000000000000002100d99c4e8b88000000880000000c00000000000000000000008001885b000061725f6e756d5f732e6e7079"];
["504b0102140314000000000000002100f287019488000000880000000c000000000000000000000080014e5c000061725f6e756d5f702e6e7079"];
["504b0102140314000000000000002100e79664e0e8010000e80100000d00000000000000000000008001145d000061725f636f656666732e6e7079"];
["504b01021403140000000000000021006e118505e8010000e80100000b000000000000000000000080013b5f000061725f657870732e6e7079"];
["504b0102140314000000000000002100c0958b8188000000880000000b00000000000000000000008001606100006b5f6e756d5f732e6e7079"];
["504b0102140314000000000000002100f287019488000000880000000b00000000000000000000008001256200006b5f6e756d5f702e6e7079"];
["504b0102140314000000000000002100d4af70c200020000000200000c00000000000000000000008001ea6200006b5f636f656666732e6e7079"];
["504b010214031400000000000000210091bae6c800020000000200000a00000000000000000000008001286500006b5f657870732e6e7079"];
["504b0102140314000000000000002100c0958b8188000000880000000c000000000000000000000080016467000063615f6e756d5f732e6e7079"];
["504b0102140314000000000000002100f287019488000000880000000c000000000000000000000080012a68000063615f6e756d5f702e6e7079"];
["504b0102140314000000000000002100e0428e8000020000000200000d00000000000000000000008001f068000063615f636f656666732e6e7079"];
["504b010214031400000000000000210009e0224f00020000000200000b000000000000000000000080012f6b000063615f657870732e6e7079"];
["504b01021403140000000000000021002392040f88000000880000000c000000000000000000000080016c6d000073635f6e756d5f732e6e7079"];
["504b0102140314000000000000002100eb8ec49e88000000880000000c00000000000000000000008001326e000073635f6e756d5f702e6e7079"];
["504b01021403140000000000000021008646ae9510020000100200000d00000000000000000000008001f86e000073635f636f656666732e6e7079"];
["504b01021403140000000000000021002bd6564e10020000100200000b000000000000000000000080014771000073635f657870732e6e7079"];
["504b01021403140000000000000021002392040f88000000880000000c000000000000000000000080019473000074695f6e756d5f732e6e7079"];
["504b0102140314000000000000002100eb8ec49e88000000880000000c000000000000000000000080015a74000074695f6e756d5f702e6e7079"];
["504b01021403140000000000000021002358b98310020000100200000d000000000000000000000080012075000074695f636f656666732e6e7079"];
["504b01021403140000000000000021008782098a10020000100200000b000000000000000000000080016f77000074695f657870732e6e7079"];
["504b01021403140000000000000021002392040f88000000880000000b00000000000000000000008001bc790000765f6e756d5f732e6e7079"];
["504b0102140314000000000000002100eb8ec49e88000000880000000b00000000000000000000008001817a0000765f6e756d5f702e6e7079"];
["504b0102140314000000000000002100ffa7806710020000100200000c00000000000000000000008001467b0000765f636f656666732e6e7079"];
["504b0102140314000000000000002100c03f027f10020000100200000a00000000000000000000008001947d0000765f657870732e6e7079"];
["504b01021403140000000000000021002392040f88000000880000000c00000000000000000000008001e07f000063725f6e756d5f732e6e7079"];
["504b0102140314000000000000002100eb8ec49e88000000880000000c00000000000000000000008001a680000063725f6e756d5f702e6e7079"];
["504b01021403140000000000000021000103b7d810020000100200000d000000000000000000000080016c81000063725f636f656666732e6e7079"];
["504b01021403140000000000000021009305822d10020000100200000b00000000000000000000008001bb83000063725f657870732e6e7079"];
["504b01021403140000000000000021002392040f88000000880000000c00000000000000000000008001088600006d6e5f6e756d5f732e6e7079"];
["504b0102140314000000000000002100eb8ec49e88000000880000000c00000000000000000000008001ce8600006d6e5f6e756d5f702e6e7079"];
["504b010214031400000000000000210049fd616c10020000100200000d00000000000000000000008001948700006d6e5f636f656666732e6e7079"];
["504b01021403140000000000000021001442281b10020000100200000b00000000000000000000008001e38900006d6e5f657870732e6e7079"];
["504b0102140314000000000000002100bd92aec388000000880000000c00000000000000000000008001308c000066655f6e756d5f732e6e7079"];
["504b0102140314000000000000002100eb8ec49e88000000880000000c00000000000000000000008001f68c000066655f6e756d5f702e6e7079"];
["504b0102140314000000000000002100d844598818020000180200000d00000000000000000000008001bc8d000066655f636f656666732e6e7079"];
["504b0102140314000000000000002100fa77053618020000180200000b000000000000000000000080011390000066655f657870732e6e7079"];
["504b0102140314000000000000002100bd92aec388000000880000000c0000000000000000000000800168920000636f5f6e756d5f732e6e7079"];
["504b0102140314000000000000002100eb8ec49e88000000880000000c000000000000000000000080012e930000636f5f6e756d5f702e6e7079"];
["504b0102140314000000000000002100794087ce18020000180200000d00000000000000000000008001f4930000636f5f636f656666732e6e7079"];
["504b010214031400000000000000210091224c5c18020000180200000b000000000000000000000080014b960000636f5f657870732e6e7079"];
["504b01021403140000000000000021002392040f88000000880000000c00000000000000000000008001a09800006e695f6e756d5f732e6e7079"];
["504b0102140314000000000000002100eb8ec49e88000000880000000c00000000000000000000008001669900006e695f6e756d5f702e6e7079"];
["504b0102140314000000000000002100f62aca8e10020000100200000d000000000000000000000080012c9a00006e695f636f656666732e6e7079"];
["504b0102140314000000000000002100eba94ed310020000100200000b000000000000000000000080017b9c00006e695f657870732e6e7079"];
["504b01021403140000000000000021002392040f88000000880000000c00000000000000000000008001c89e000063755f6e756d5f732e6e7079"];
["504b0102140314000000000000002100eb8ec49e88000000880000000c000000000000000000000080018e9f000063755f6e756d5f702e6e7079"];
["504b01021403140000000000000021009a9cde1e10020000100200000d0000000000000000000000800154a0000063755f636f656666732e6e7079"];
["504b0102140314000000000000002100dfbdaca110020000100200000b00000000000000000000008001a3a2000063755f657870732e6e7079"];
["504b01021403140000000000000021002392040f88000000880000000c00000000000000000000008001f0a400007a6e5f6e756d5f732e6e7079"];
["504b0102140314000000000000002100758e6e5288000000880000000c00000000000000000000008001b6a500007a6e5f6e756d5f702e6e7079"];
["504b01021403140000000000000021006c5111ca18020000180200000d000000000000000000000080017ca600007a6e5f636f656666732e6e7079"];
["504b0102140314000000000000002100fa524ff518020000180200000b00000000000000000000008001d3a800007a6e5f657870732e6e7079"];
["504b01021403140000000000000021002392040f88000000880000000c0000000000000000000000800128ab000067615f6e756d5f732e6e7079"];
["504b01021403140000000000000021009689e1dc88000000880000000c00000000000000000000008001eeab000067615f6e756d5f702e6e7079"];
["504b01021403140000000000000021004f88afe420020000200200000d00000000000000000000008001b4ac000067615f636f656666732e6e7079"];
["504b0102140314000000000000002100bcafee5f20020000200200000b0000000000000000000000800113af000067615f657870732e6e7079"];
["504b01021403140000000000000021002392040f88000000880000000c0000000000000000000000800170b1000067655f6e756d5f732e6e7079"];
["504b01021403140000000000000021009689e1dc88000000880000000c0000000000000000000000800136b2000067655f6e756d5f702e6e7079"];
["504b0102140314000000000000002100fd91975320020000200200000d00000000000000000000008001fcb2000067655f636f656666732e6e7079"];
["504b010214031400000000000000210012b5e4ff20020000200200000b000000000000000000000080015bb5000067655f657870732e6e7079"];
["504b01021403140000000000000021002392040f88000000880000000c00000000000000000000008001b8b7000061735f6e756d5f732e6e7079"];
["504b01021403140000000000000021009689e1dc88000000880000000c000000000000000000000080017eb8000061735f6e756d5f702e6e7079"];
["504b01021403140000000000000021002fdb253220020000200200000d0000000000000000000000800144b9000061735f636f656666732e6e7079"];
["504b0102140314000000000000002100bbe929d220020000200200000b00000000000000000000008001a3bb000061735f657870732e6e7079"];
["504b01021403140000000000000021002392040f88000000880000000c0000000000000000000000800100be000073655f6e756d5f732e6e7079"];
["504b0102140314000000000000002100758e6e5288000000880000000c00000000000000000000008001c6be000073655f6e756d5f702e6e7079"];
["504b0102140314000000000000002100f69111ac18020000180200000d000000000000000000000080018cbf000073655f636f656666732e6e7079"];
["504b0102140314000000000000002100cd551fd718020000180200000b00000000000000000000008001e3c1000073655f657870732e6e7079"];
["504b01021403140000000000000021002392040f88000000880000000c0000000000000000000000800138c4000062725f6e756d5f732e6e7079"];
["504b0102140314000000000000002100758e6e5288000000880000000c00000000000000000000008001fec4000062725f6e756d5f702e6e7079"];
["504b0102140314000000000000002100b63bc29b18020000180200000d00000000000000000000008001c4c5000062725f636f656666732e6e7079"];
["504b010214031400000000000000210067fd4c3f18020000180200000b000000000000000000000080011bc8000062725f657870732e6e7079"];
["504b01021403140000000000000021002392040f88000000880000000c0000000000000000000000800170ca00006b725f6e756d5f732e6e7079"];
["504b0102140314000000000000002100eb8ec49e88000000880000000c0000000000000000000000800136cb00006b725f6e756d5f702e6e7079"];
["504b0102140314000000000000002100312b350010020000100200000d00000000000000000000008001fccb00006b725f636f656666732e6e7079"];
["504b01021403140000000000000021007da36a6210020000100200000b000000000000000000000080014bce00006b725f657870732e6e7079"];
["504b01021403140000000000000021002392040f88000000880000000c0000000000000000000000800198d0000072625f6e756d5f732e6e7079"];
["504b0102140314000000000000002100eb8ec49e88000000880000000c000000000000000000000080015ed1000072625f6e756d5f702e6e7079"];
["504b0102140314000000000000002100e3eb5aa910020000100200000d0000000000000000000000800124d2000072625f636f656666732e6e7079"];
["504b010214031400000000000000210068e9fd6910020000100200000b0000000000000000000000800173d4000072625f657870732e6e7079"];
["504b01021403140000000000000021002392040f88000000880000000c00000000000000000000008001c0d6000073725f6e756d5f732e6e7079"];
["504b0102140314000000000000002100758e6e5288000000880000000c0000000000000000000000800186d7000073725f6e756d5f702e6e7079"];
["504b01021403140000000000000021002f02d7d618020000180200000d000000000000000000000080014cd8000073725f636f656666732e6e7079"];
["504b01021403140000000000000021002c03de9b18020000180200000b00000000000000000000008001a3da000073725f657870732e6e7079"];
["504b01021403140000000000000021002392040f88000000880000000b00000000000000000000008001f8dc0000795f6e756d5f732e6e7079"];
["504b01021403140000000000000021009689e1dc88000000880000000b00000000000000000000008001bddd0000795f6e756d5f702e6e7079"];
["504b0102140314000000000000002100cd28b23920020000200200000c0000000000000000000000800182de0000795f636f656666732e6e7079"];
["504b01021403140000000000000021008619b00a20020000200200000a00000000000000000000008001e0e00000795f657870732e6e7079"];
["504b01021403140000000000000021002392040f88000000880000000c000000000000000000000080013ce300007a725f6e756d5f732e6e7079"];
["504b01021403140000000000000021009689e1dc88000000880000000c0000000000000000000000800102e400007a725f6e756d5f702e6e7079"];
["504b01021403140000000000000021004697800f20020000200200000d00000000000000000000008001c8e400007a725f636f656666732e6e7079"];
["504b0102140314000000000000002100c1b41fb220020000200200000b0000000000000000000000800127e700007a725f657870732e6e7079"];
["504b0102140314000000000000002100bd92aec388000000880000000c0000000000000000000000800184e900006e625f6e756d5f732e6e7079"];
["504b010214031400000000000000210008894b1088000000880000000c000000000000000000000080014aea00006e625f6e756d5f702e6e7079"];
["504b01021403140000000000000021005b3ff45c30020000300200000d0000000000000000000000800110eb00006e625f636f656666732e6e7079"];
["504b01021403140000000000000021005c053ebb30020000300200000b000000000000000000000080017fed00006e625f657870732e6e7079"];
["504b01021403140000000000000021002392040f88000000880000000c00000000000000000000008001ecef00006d6f5f6e756d5f732e6e7079"];
["504b010214031400000000000000210008894b1088000000880000000c00000000000000000000008001b2f000006d6f5f6e756d5f702e6e7079"];
["504b01021403140000000000000021000f1df04028020000280200000d0000000000000000000000800178f100006d6f5f636f656666732e6e7079"];
["504b01021403140000000000000021007402e58e28020000280200000b00000000000000000000008001dff300006d6f5f657870732e6e7079"];
["504b01021403140000000000000021006cd3439f88000000880000000c0000000000000000000000800144f6000074635f6e756d5f732e6e7079"];
["504b01021403140000000000000021009689e1dc88000000880000000c000000000000000000000080010af7000074635f6e756d5f702e6e7079"];
["504b0102140314000000000000002100b41fa35d30020000300200000d00000000000000000000008001d0f7000074635f636f656666732e6e7079"];
["504b01021403140000000000000021007e1b966630020000300200000b000000000000000000000080013ffa000074635f657870732e6e7079"];
["504b0102140314000000000000002100bd92aec388000000880000000c00000000000000000000008001acfc000072755f6e756d5f732e6e7079"];
["504b01021403140000000000000021009689e1dc88000000880000000c0000000000000000000000800172fd000072755f6e756d5f702e6e7079"];
["504b0102140314000000000000002100f300cab528020000280200000d0000000000000000000000800138fe000072755f636f656666732e6e7079"];
["504b01021403140000000000000021005a64847d28020000280200000b000000000000000000000080019f00010072755f657870732e6e7079"];
["504b01021403140000000000000021006cd3439f88000000880000000c000000000000000000000080010403010072685f6e756d5f732e6e7079"];
["504b0102140314000000000000002100758e6e5288000000880000000c00000000000000000000008001ca03010072685f6e756d5f702e6e7079"];
["504b0102140314000000000000002100a6afb18f28020000280200000d000000000000000000000080019004010072685f636f656666732e6e7079"];
["504b010214031400000000000000210001c2966728020000280200000b00000000000000000000008001f706010072685f657870732e6e7079"];
["504b0102140314000000000000002100c0958b8188000000880000000c000000000000000000000080015c09010070645f6e756d5f732e6e7079"];
["504b01021403140000000000000021009689e1dc88000000880000000c00000000000000000000008001220a010070645f6e756d5f702e6e7079"];
["504b01021403140000000000000021006c9aafbc18020000180200000d00000000000000000000008001e80a010070645f636f656666732e6e7079"];
["504b0102140314000000000000002100cd79ad4318020000180200000b000000000000000000000080013f0d010070645f657870732e6e7079"];
["504b0102140314000000000000002100bd92aec388000000880000000c00000000000000000000008001940f010061675f6e756d5f732e6e7079"];
["504b0102140314000000000000002100758e6e5288000000880000000c000000000000000000000080015a10010061675f6e756d5f702e6e7079"];
["504b01021403140000000000000021008bdb8bf820020000200200000d000000000000000000000080012011010061675f636f656666732e6e7079"];
["504b01021403140000000000000021009b803f4720020000200200000b000000000000000000000080017f13010061675f657870732e6e7079"];
["504b0102140314000000000000002100bd92aec388000000880000000c00000000000000000000008001dc15010063645f6e756d5f732e6e7079"];
["504b0102140314000000000000002100eb8ec49e88000000880000000c00000000000000000000008001a216010063645f6e756d5f702e6e7079"];
["504b01021403140000000000000021003432496718020000180200000d000000000000000000000080016817010063645f636f656666732e6e7079"];
["504b0102140314000000000000002100e643c13218020000180200000b00000000000000000000008001bf19010063645f657870732e6e7079"];
["504b01021403140000000000000021002392040f88000000880000000c00000000000000000000008001141c0100696e5f6e756d5f732e6e7079"];
["504b01021403140000000000000021009689e1dc88000000880000000c00000000000000000000008001da1c0100696e5f6e756d5f702e6e7079"];
["504b01021403140000000000000021004ee8fc7e20020000200200000d00000000000000000000008001a01d0100696e5f636f656666732e6e7079"];
["504b010214031400000000000000210076b1659420020000200200000b00000000000000000000008001ff1f0100696e5f657870732e6e7079"];
["504b01021403140000000000000021002392040f88000000880000000c000000000000000000000080015c220100736e5f6e756d5f732e6e7079"];
["504b01021403140000000000000021009689e1dc88000000880000000c0000000000000000000000800122230100736e5f6e756d5f702e6e7079"];
["504b010214031400000000000000210091756b4520020000200200000d00000000000000000000008001e8230100736e5f636f656666732e6e7079"];
["504b0102140314000000000000002100f615001620020000200200000b0000000000000000000000800147260100736e5f657870732e6e7079"];
["504b01021403140000000000000021002392040f88000000880000000c00000000000000000000008001a428010073625f6e756d5f732e6e7079"];
["504b01021403140000000000000021009689e1dc88000000880000000c000000000000000000000080016a29010073625f6e756d5f702e6e7079"];
["504b01021403140000000000000021002087013420020000200200000d00000000000000000000008001302a010073625f636f656666732e6e7079"];
["504b01021403140000000000000021009079950a20020000200200000b000000000000000000000080018f2c010073625f657870732e6e7079"];
["504b01021403140000000000000021002392040f88000000880000000c00000000000000000000008001ec2e010074655f6e756d5f732e6e7079"];
["504b010214031400000000000000210008894b1088000000880000000c00000000000000000000008001b22f010074655f6e756d5f702e6e7079"];
["504b0102140314000000000000002100feccbf7528020000280200000d000000000000000000000080017830010074655f636f656666732e6e7079"];
["504b010214031400000000000000210071d4ef4e28020000280200000b00000000000000000000008001df32010074655f657870732e6e7079"];
["504b01021403140000000000000021002392040f88000000880000000b0000000000000000000000800144350100695f6e756d5f732e6e7079"];
["504b01021403140000000000000021009689e1dc88000000880000000b0000000000000000000000800109360100695f6e756d5f702e6e7079"];
["504b0102140314000000000000002100dd4130b920020000200200000c00000000000000000000008001ce360100695f636f656666732e6e7079"];
["504b0102140314000000000000002100e686e35720020000200200000a000000000000000000000080012c390100695f657870732e6e7079"];
["504b0102140314000000000000002100bd92aec388000000880000000c00000000000000000000008001883b010078655f6e756d5f732e6e7079"];
["504b01021403140000000000000021009689e1dc88000000880000000c000000000000000000000080014e3c010078655f6e756d5f702e6e7079"];
["504b0102140314000000000000002100c9bae29928020000280200000d00000000000000000000008001143d010078655f636f656666732e6e7079"];
["504b0102140314000000000000002100d4008e2f28020000280200000b000000000000000000000080017b3f010078655f657870732e6e7079"]].
Definition slsqp_end : list string := ["504b050600000000d800d800c0300000e04101000000"].
Definition slsqp_npz : bytes := (List.concat (map hex slsqp_files) ++ List.concat (map hex slsqp_records) ++ hex slsqp_end)%list.
