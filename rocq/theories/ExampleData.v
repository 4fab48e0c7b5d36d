(** Files of /repo/tests/test_data, in hexadecimal.  No proofs in this file. *)
From Verif Require Import Base.

(** The value of a hexadecimal digit. *)
Definition unhex_digit (c : ascii) : N :=
  let n := N_of_ascii c in
  if (n <? 58)%N then (n - 48)%N else (n - 87)%N.
Fixpoint unhex (s : string) : bytes :=
  match s with
  | String a (String b s') =>
      match Byte.of_N (16 * unhex_digit a + unhex_digit b)%N with
      | Some x => x :: unhex s'
      | None => unhex s'
      end
  | _ => []
  end.
Definition unhex_lines (l : list string) : bytes := flat_map unhex l.

(** tests/test_data/simple *)
Definition simple_hex : list string := [
"4d5a31323334353637383930"].

(** tests/test_data/___2A6E.tmp *)
Definition t2A6E_hex : list string := [
"4d5a90000300000004000000ffff0000b800000000000000400000000000000000000000000000000000000000000000000000000000000000000000e8000000";
"0e1fba0e00b409cd21b8014ccd21546869732070726f6772616d2063616e6e6f742062652072756e20696e20444f53206d6f64652e0d0d0a2400000000000000";
"1cd33d4c58b2531f58b2531f58b2531f7f742e1f5eb2531f7f74281f5ab2531f7f743e1f1db2531f9bbd0e1f5bb2531f58b2521f0cb2531f7f743d1f57b2531f";
"7f742d1f59b2531f7f742b1f59b2531f5269636858b2531f00000000000000000000000000000000504500004c010200a2464c510000000000000000e0000301";
"0b0108000014000000080000000000000f1600000010000000300000000000010010000000020000060000000600000005000100000000000040000000040000";
"d9630000030000800000040000200000000010000010000000000000100000000000000000000000cc1e00003c00000000000000000000000000000000000000";
"001c0000680800000000000000000000c01000001c00000000000000000000000000000000000000000000000000000090110000400000000000000000000000";
"00100000980000000000000000000000000000000000000000000000000000002e746578740000002e1200000010000000140000000400000000000000000000";
"00000000200000602e6461746100000088060000003000000004000000180000000000000000000000000000400000c000000000000000000000000000000000";
"00000000000000000000000000000000000000000000000000000000000000000000000000000000000000000000000000000000000000000000000000000000";
"00000000000000000000000000000000000000000000000000000000000000000000000000000000000000000000000000000000000000000000000000000000";
"00000000000000000000000000000000000000000000000000000000000000000000000000000000000000000000000000000000000000000000000000000000";
"00000000000000000000000000000000000000000000000000000000000000000000000000000000000000000000000000000000000000000000000000000000";
"00000000000000000000000000000000000000000000000000000000000000000000000000000000000000000000000000000000000000000000000000000000";
"00000000000000000000000000000000000000000000000000000000000000000000000000000000000000000000000000000000000000000000000000000000";
"00000000000000000000000000000000000000000000000000000000000000000000000000000000000000000000000000000000000000000000000000000000";
"a01f0000ae1f0000bc1f0000ce1f0000de1f0000ec1f0000022000001220000012220000fe210000ea210000d0210000ba210000aa210000902100007c210000";
"5e21000052210000342100002c21000016210000000000005c20000064200000722000007a2000008620000094200000a8200000b8200000c8200000d6200000";
"f42000000821000052200000402000003620000000000000000000009713000100000000000000003d1500016f19000100000000000000000000000000000000";
"00000000a2464c51000000000200000029000000d8110000d80500006e74646c6c2e646c6c0000004e745175657279496e666f726d6174696f6e50726f636573";
"7300000070736170692e646c6c0000004765744d6f64756c6546696c654e616d654578410000000050330001a033000106808086808180000010038680868280";
"14050545454585858505000030308050808000080028273850578000070037303050508800000020288088808000000060606068686808080778707077707008";
"08000008000800070800000000000000480000000000000000000000000000000000000000000000000000000000000000000000000000000000000000000000";
"000000000000000000000000003000014012000102000000525344533dade0d23a38d14f8fe4da5c32b6543701000000506172656e7444656c6574652e706462";
"00000000000000000000000000000000000000000000000000000000000000000000000000000000000000000000000000000000000000000000000000000000";
"d8160000021b0000000000000000000000000000008bff558bec83ec1c53565768e810000168dc10000183cbffff150c10000150ff1508100001ff75088bf86a";
"006800040000ff15041000018bf085f6741d8d45fc506a188d45e4506a0056ffd785c075038b5df856ff15001000015f5e8bc35bc9c20400cccccccccc8bff55";
"8bec81ec04010000a10030000133c58945fc565768101100016804110001ff150c10000150ff15081000018bf8ff151c10000150e85cffffff506a0168100410";
"00ff150410000168ff0000008bf08d85fdfeffff6a0050c685fcfeffff00e80f03000083c40c68000100008d85fcfeffff506a0056ffd785c07508ff15181000";
"01eb186aff56ff15141000018d85fcfeffff50ff151010000133c08b4dfc5f33cd5ee8b7020000c9c3cccccccccc8bff558bec568b750833c0eb0f85c075108b";
"0e85c97402ffd183c6043b750c72ec5e5dc3cccccccccca1443300016834330001ff3540330001a334330001682433000168283300016820330001ff158c1000";
"0183c414a330330001c3cccccccccc6a1068701e0001e8c906000033db895dfc64a1180000008b7004895de4bf7c360001535657ff15481000013bc374193bc6";
"750833f6468975e4eb1068e8030000ff154c100001ebda33f646a1783600013bc6750a6a1fe86e06000059eb3ba17836000185c0752c89357836000168b01000";
"0168a4100001e823ffffff595985c07417c745fcfeffffffb8ff000000e9d000000089353c330001a1783600013bc6751b68a01000016898100001e80c060000";
"5959c7057836000102000000395de475085357ff1550100001391d8436000174196884360001e8700500005985c0740a536a0253ff1584360001ff3524330001";
"ff3528330001ff3520330001e8ecfdffff83c40ca338330001391d2c330001753750ff15601000018b45ec8b088b09894de05051e8890400005959c38b65e88b";
"45e0a33833000133db391d2c330001750750ff1558100001391d3c3300017506ff1588100001c745fcfeffffffa138330001e8b2050000c3cccccccccc66813d";
"000000014d5a740433c0eb51a13c00000181b8000000015045000075eb0fb7881800000181f90b010000741b81f90b02000075d483b8840000010e76cb33c939";
"88f8000001eb1183b8740000010e76b833c93988e80000010f95c18bc16a01a32c330001e80606000050ff157c100001830d6c360001ff830d70360001ff5959";
"ff15781000018b0d4c3300018908ff15741000018b0d483300018908a1701000018b00a374360001e857050000833d1830000100750c68441b0001ff156c1000";
"0159e82505000033c0c3cccccccccce8da050000e9b6fdffffcccccccccc3b0d003000017502f3c3e94b060000ccccccccccff2590100001cccccccccccccccc";
"cccccccccccccccc5356578b5424108b4424148b4c2418555250515168d816000164ff3500000000a10030000133c489442408648925000000008b4424308b58";
"088b4c242c33198b700c83fefe743b8b54243483fafe74043bf2762e8d34768d5cb3108b0b89480c837b040075cc68010100008b4308e84a070000b901000000";
"8b4308e85c070000ebb0648f050000000083c4185f5e5bc38b4c2404f7410406000000b80100000074338b4424088b480833c8e826ffffff558b6818ff700cff";
"7010ff7014e83effffff83c40c5d8b4424088b5424108902b803000000c3558b4c24088b29ff711cff7118ff7128e815ffffff83c40c5dc20400555657538bea";
"33c033db33d233f633ffffd15b5f5e5dc38bea8bf18bc16a01e8a706000033c033db33c933d233ffffe6558bec5356576a006a00687f17000151e8eb0600005f";
"5e5b5dc3558b6c24085251ff742414e8b4feffff83c40c5dc20800cccccccccc8bff558bec83ec188b4508538b5d14568b73083330578b0683f8fec645ff00c7";
"45f4010000008d7b10740b8b4e0403cf330c38ff550c8b4e0c8b560803cf330c3aff550c8b4510f64004660f85120100008d4de8894bfc8b5b0c83fbfe8945e8";
"8b45188945ec7460eb068d9b000000008d145b8b4c961485c98d4496108945f08b008945f874148bd7e80cffffff85c0c645ff017c3c7f438b45f883f8fe8bd8";
"75ce807dff0074208b0683f8fe740b8b4e0403cf330c38ff550c8b4e0c8b560803cf330c3aff550c8b45f45f5e5b8be55dc3c745f400000000ebcd8b45108138";
"63736de07529833d803600010074206880360001e88201000083c40485c0740f8b4d106a0151ff158036000183c4088b4d14e8b3feffff8b451439580c74118b";
"550852578bd38bc8e8b7feffff8b45148b4df889480c8b0683f8fe740b8b4e0403cf330c38ff550c8b4e0c8b560803cf330c3aff550c8b45f08b48088bd7e94e";
"feffffbafeffffff39530c0f8457ffffff8b4d0851578bcbe867feffffe926ffffffcccccccccc8bff558bec8b45088b00813863736de0752b8378100375258b";
"40143d2005931974153d21059319740e3d2205931974073d004099017506ff158010000133c05dc20400cccccccccc6827190001ff154010000133c0c3cccccc";
"ccccff255c100001cccccccccccccccc8bff558bec8b4d086681394d5a740433c05dc38b413c03c181385045000075ef33c9668178180b010f94c18bc15dc3cc";
"cccccccccccccccccccccccccccccccc8bff558bec8b45088b483c03c80fb7411453560fb7710633d285f6578d440818761d8b7d0c8b480c3bf972098b580803";
"d93bfb720c83c20183c0283bd672e633c05f5e5b5dc3cccccccccc6a0868901e0001e87d0000008365fc00ba0000000152e85affffff5985c0743d8b45082bc2";
"5052e889ffffff595985c0742b8b4024c1e81ff7d083e001c745fcfeffffffeb208b45ec8b008b0033c93d050000c00f94c18bc1c38b65e8c745fcfeffffff33";
"c0e863000000c3ccccccccccff2564100001ccccccccccccff2568100001cccccccccccc68021b000164ff35000000008b442410896c24108d6c24102be05356";
"57a1003000013145fc33c5508965e8ff75f88b45fcc745fcfeffffff8945f88d45f064a300000000c38b4df064890d00000000595f5f5e5b8be55d51c3cccccc";
"cccc8bff558becff7514ff7510ff750cff7508681e1600016800300001e87efcffff83c4185dc3cccccccccc68000003006800000100ff15841000015959c3cc";
"cccccccc33c0c3cccccccccc6a0c68b01e0001e84cffffff33c08b4d0885c9744183f9ff743c2145fc6681394d5a752b8b513c85d27c2481fa00000010731c8d";
"040a8945e4813850450000740eeb0733c040c38b65e833c08945e4c745fcfeffffffe842ffffffc20400cccccccccc8bff558bec6a00ff153c10000185c07424";
"50e886ffffff85c0741a0fb7405c663d020075056a02585dc3663d0300750533c0405dc38b45085dc3cccccccccc8bff558bec83ec10a1003000018365f80083";
"65fc0057bf4ee640bb3bc77410a90000ffff7409f7d0a304300001eb53568d45f850ff152c1000018b75fc3375f8ff151c10000133f0ff153010000133f0ff15";
"3410000133f08d45f050ff15381000018b45f43345f033f03bf77505be4fe640bb893500300001f7d68935043000015e5fc9c3cccccccccc8bff558bec81ec28";
"030000a350340001890d4c340001891548340001891d44340001893540340001893d3c340001668c1568340001668c0d5c340001668c1d38340001668c053434";
"0001668c2530340001668c2d2c3400019c8f05603400018b4500a3543400018b4504a3583400018d4508a3643400018b85e0fcffffc705a033000101000100a1";
"58340001a35c330001c70550330001090400c0c7055433000101000000a1003000018985d8fcffffa1043000018985dcfcffff6a00ff15401000016828110001";
"ff152010000168090400c0ff152410000150ff1528100001c9c3cccccccccccc568b4424140bc075288b4c24108b44240c33d2f7f18bd88b442408f7f18bf08b";
"c3f76424108bc88bc6f764241003d1eb478bc88b5c24108b54240c8b442408d1e9d1dbd1ead1d80bc975f4f7f38bf0f76424148bc88b442410f7e603d1720e3b";
"54240c7708720f3b44240876094e2b4424101b54241433db2b4424081b54240cf7daf7d883da008bca8bd38bd98bc88bc65ec21000cccccccccccccc5351bb20";
"300001eb0b5351bb203000018b4c240c894b08894304896b0c55515058595d595bc20400ffd0c3cccccccccccccccccc8b4424088b4c24100bc88b4c240c7509";
"8b442404f7e1c2100053f7e18bd88b442408f764241403d88b442408f7e103d35bc21000ccccccccccccff2544100001feffffff00000000d0ffffff00000000";
"feffffffe8140001fc14000100000000feffffff00000000d8ffffff00000000feffffff611a0001751a000100000000feffffff00000000d4ffffff00000000";
"feffffff8f1b0001931b0001081f000000000000000000002820000000100000601f00000000000000000000e820000058100000000000000000000000000000";
"0000000000000000a01f0000ae1f0000bc1f0000ce1f0000de1f0000ec1f0000022000001220000012220000fe210000ea210000d0210000ba210000aa210000";
"902100007c2100005e21000052210000342100002c21000016210000000000005c20000064200000722000007a2000008620000094200000a8200000b8200000";
"c8200000d6200000f420000008210000522000004020000036200000000000003100436c6f736548616e646c650074024f70656e50726f636573730097014765";
"7450726f6341646472657373000041024c6f61644c696272617279410000810044656c65746546696c6541007a0357616974466f7253696e676c654f626a6563";
"740068014765744c6173744572726f7200003c0147657443757272656e7450726f636573734964004b45524e454c33322e646c6c0000ee046d656d7365740000";
"e1005f5f776765746d61696e61726773000014015f6365786974000062015f65786974006a005f5863707446696c746572008f04657869740000d5015f696e69";
"747465726d0001015f616d73675f657869740000d4005f5f736574757365726d6174686572720000f5005f61646a7573745f666469760000b9005f5f705f5f63";
"6f6d6d6f64650000be005f5f705f5f666d6f64650000d2005f5f7365745f6170705f7479706500006d73766372742e646c6c000037003f7465726d696e617465";
"4040594158585a0027015f636f6e74726f6c667000001a02496e7465726c6f636b656445786368616e6765003e03536c656570001802496e7465726c6f636b65";
"64436f6d7061726545786368616e67650000c40252746c556e77696e64003203536574556e68616e646c6564457863657074696f6e46696c7465720075014765";
"744d6f64756c6548616e646c6541000091025175657279506572666f726d616e6365436f756e74657200d1014765745469636b436f756e7400003e0147657443";
"757272656e7454687265616449640000bd0147657453797374656d54696d65417346696c6554696d650046035465726d696e61746550726f6365737300003b01";
"47657443757272656e7450726f63657373005703556e68616e646c6564457863657074696f6e46696c7465720000000000000000000000000000000000000000";
"00000000000000000000000000000000000000000000000000000000000000000000000000000000000000000000000000000000000000000000000000000000";
"00000000000000000000000000000000000000000000000000000000000000000000000000000000000000000000000000000000000000000000000000000000";
"00000000000000000000000000000000000000000000000000000000000000000000000000000000000000000000000000000000000000000000000000000000";
"00000000000000000000000000000000000000000000000000000000000000000000000000000000000000000000000000000000000000000000000000000000";
"00000000000000000000000000000000000000000000000000000000000000000000000000000000000000000000000000000000000000000000000000000000";
"00000000000000000000000000000000000000000000000000000000000000000000000000000000000000000000000000000000000000000000000000000000";
"00000000000000000000000000000000000000000000000000000000000000000000000000000000000000000000000000000000000000000000000000000000";
"4ee640bbb119bf440000000000000000ffffffffffffffff0100000000000000200593190000000000000000000000000004000001fcffff350000000b000000";
"40000000ff0300008000000081ffffff1800000008000000200000007f000000000000000000000000a00240000000000000000000c805400000000000000000";
"00fa08400000000000000000409c0c40000000000000000050c30f40000000000000000024f412400000000000000080969816400000000000000020bcbe1940";
"000000000004bfc91b8e3440000000a1edccce1bc2d34e4020f09eb5702ba8adc59d6940d05dfd25e51a8e4f19eb83407196d795430e058d29af9e40f9bfa044";
"ed81128f8182b940bf3cd5a6cfff491f78c2d3406fc6e08ce980c947ba93a841bc856b5527398df770e07c42bcdd8edef99dfbeb7eaa5143a1e676e3ccf2292f";
"84812644281017aaf8ae10e3c5c4fa44eba7d4f3f7ebe14a7a95cf4565ccc7910ea6aea019e3a3460d65170c7581867576c9484d5842e4a793393b35b8b2ed53";
"4da7e55d3dc55d3b8b9e925aff5da6f0a120c054a58c3761d1fd8b5a8bd8255d89f9db67aa95f8f327bfa2c85ddd806e4cc99b97208a025260c4257500000000";
"cdcccdccccccccccccccfb3f713d0ad7a3703d0ad7a3f83f5a643bdf4f8d976e1283f53fc3d32c6519e25817b7d1f13fd00f2384471b47acc5a7ee3f40a6b669";
"6caf05bd3786eb3f333dbc427ae5d594bfd6e73fc2fdfdce61841177ccabe43f2f4c5be14dc4be9495e6c93f92c4533b7544cd14be9aaf3fde67ba943945ad1e";
"b1cf943f2423c6e2bcba3b31618b7a3f615559c17eb1537c12bb5f3fd7ee2f8d06be928515fb443f243fa5e939a527ea7fa82a3f7daca1e4bc647c46d0dd553e";
"637b06cc23547783ff91813d91fa3a197a63254331c0ac3c2189d138824797b800fdd73bdc8858081bb1e8e386a6033bc684454207b6997537db2e3a33711cd2";
"23db32ee49905a39a687bec057daa582a6a2b532e268b211a7529f4459b7102c2549e42d36344f53aece6b258f5904a4c0dec27dfbe8c61e9ee7885a57913cbf";
"508322184e4b6562fd838faf06947d11e42dde9fced2c804dda6d80a000000000000000000000000000000000000000000000000000000000000000000000000";
"00000000000000000000000000000000000000000000000000000000000000000000000000000000000000000000000000000000000000000000000000000000";
"00000000000000000000000000000000000000000000000000000000000000000000000000000000000000000000000000000000000000000000000000000000";
"00000000000000000000000000000000000000000000000000000000000000000000000000000000000000000000000000000000000000000000000000000000";
"68080000000202003082085806092a864886f70d010702a082084930820845020101310b300906052b0e03021a05003068060a2b060104018237020104a05a30";
"583033060a2b06010401823702010f3025030100a020a21e801c003c003c003c004f00620073006f006c006500740065003e003e003e3021300906052b0e0302";
"1a050004141417aaae3b687fe9e4363756fd28c976498c62e7a08205603082055c30820444a00302010202100e808f231515bc519eea1a73cdf3266f300d0609";
"2a864886f70d01010505003081b4310b300906035504061302555331173015060355040a130e566572695369676e2c20496e632e311f301d060355040b131656";
"6572695369676e205472757374204e6574776f726b313b3039060355040b13325465726d73206f66207573652061742068747470733a2f2f7777772e76657269";
"7369676e2e636f6d2f727061202863293130312e302c06035504031325566572695369676e20436c617373203320436f6465205369676e696e67203230313020";
"4341301e170d3133303431393030303030305a170d3136303731383233353935395a30819f310b3009060355040613024247310e300c06035504081305536f66";
"6961310e300c06035504071305536f66696131173015060355040a140e54656353797374656d204c74642e313e303c060355040b13354469676974616c204944";
"20436c6173732033202d204d6963726f736f667420536f6674776172652056616c69646174696f6e207632311730150603550403140e54656353797374656d20";
"4c74642e30820122300d06092a864886f70d01010105000382010f003082010a0282010100b2c3b55582dd616e39a6449e9a9ee54291f202d8006778cb771c01";
"40d9c50b4eba323c9e2943cb27b54c6a36d8877a9f2384ec58313b4461a7aa24e978d7c64d4f09e5f30fc51ca46cd2ca3c5ecff6038dfff29412cb737714a0be";
"303ec41335beff5fac33663be64ca9ecfb5eb6d2448a4dfec517f9ccdfea87a797be8518d0911fbdc55747b5a473c7f4a4fc12984aa15b23003b6f8b11f21fd3";
"7433cb422fb63caafff400d13a0496f220720271a0daf45c4d0e779bf4b83f5e654e4e4525155a421a6dd56f9c8a30fafa24283dcf79ad736ac7b7a72aa91ef2";
"42805db999a06c96e1c31131dc418d5e7192730bc6110c2cd211c224d290d6ba5ae96129c10203010001a382017b3082017730090603551d1304023000300e06";
"03551d0f0101ff04040302078030400603551d1f043930373035a033a031862f687474703a2f2f637363332d323031302d63726c2e766572697369676e2e636f";
"6d2f435343332d323031302e63726c30440603551d20043d303b3039060b6086480186f84501071703302a302806082b06010505070201161c68747470733a2f";
"2f7777772e766572697369676e2e636f6d2f72706130130603551d25040c300a06082b06010505070303307106082b0601050507010104653063302406082b06";
"0105050730018618687474703a2f2f6f6373702e766572697369676e2e636f6d303b06082b06010505073002862f687474703a2f2f637363332d323031302d61";
"69612e766572697369676e2e636f6d2f435343332d323031302e636572301f0603551d23041830168014cf99a9ea7b26f44bc98e8fd7f00526efe3d2a79d3011";
"06096086480186f84201010404030204103016060a2b06010401823702011b040830060101000101ff300d06092a864886f70d0101050500038201010076011e";
"268f19ff45ae9b717914bd5f595a948c6714e4d6d3fe60bc78cf07e4b8e41294657dc9337aef34ede99e1a85ba48270a72992ea4aad892c434d4b6b2a7269d06";
"3da6690a2a105202074bfcb67de7a7afd0ba151b7b0d2d7a6f20eff7e15db0bf6dbae3363c87766f5c15abbf4c8e2d00949547f269fc79f4b3ffa8c4c4080d22";
"823144335412fd72421a02478df81edc149a1668af0b30e0dd5afdb289b73a5d30f80e2ad9664380091565f3446625944058e71f242cf0f235901b032a77c323";
"12ce9b40fd855966eaaad674b9db2cf763a079899faa80e95a571c1b8be4205ef607017d4b2561d0c04bf1b66fd205383882f8eea6a40d10ad7fc6e8a1318202";
"633082025f0201013081c93081b4310b300906035504061302555331173015060355040a130e566572695369676e2c20496e632e311f301d060355040b131656";
"6572695369676e205472757374204e6574776f726b313b3039060355040b13325465726d73206f66207573652061742068747470733a2f2f7777772e76657269";
"7369676e2e636f6d2f727061202863293130312e302c06035504031325566572695369676e20436c617373203320436f6465205369676e696e67203230313020";
"434102100e808f231515bc519eea1a73cdf3266f300906052b0e03021a0500a0703010060a2b06010401823702010c31023000301906092a864886f70d010903";
"310c060a2b060104018237020104301c060a2b06010401823702010b310e300c060a2b060104018237020115302306092a864886f70d01090431160414fa4dff";
"5fd398845f2da618080a18158e45e76cbe300d06092a864886f70d010101050004820100525dbfb541b0e1939e365b129658aaf4a099596a20d2efc95fa2881b";
"ec545a9cda67028955132be18564dc0f0ee051aae5d2660a7dc40290093c269235538e5cd36d7df345b6c48115e6a01e001ad17933bfdc4f4c61aa5c375781e4";
"20631b863e2e4907bb94b314532c509dc3dd17bfb969a554ec28cc03f4c29b64ea6f99a36f85ee3bbcfdd14b86436a883a5d4e19789bd1b64ea46ac0c60de393";
"684e0fd04e280f4f911814924cdc1d8382b9e01fdb16921fd5c38607edac36048921f33478bf0616efdc824c344d1726c6679e00bc82ee65b2b0a31947d46904";
"3841f4e06b739129b1a410593700953fb0d5cf9903324b4f544bd2e7ba3c3f90458154a300000000"].

(** tests/test_data/pciide.sys *)
Definition pciide_hex : list string := [
"4d5a90000300000004000000ffff0000b800000000000000400000000000000000000000000000000000000000000000000000000000000000000000d8000000";
"0e1fba0e00b409cd21b8014ccd21546869732070726f6772616d2063616e6e6f742062652072756e20696e20444f53206d6f64652e0d0d0a2400000000000000";
"5d17e9f4197687a7197687a7197687a7197686a71a7687a7100e14a71c7687a7100e12a7187687a7100e04a71d7687a7100e0ea7187687a7100e13a7187687a7";
"100e16a7187687a752696368197687a70000000000000000504500006486060015c15b4a0000000000000000f00022000b02090000060000000a000000000000";
"645000000010000000000100000000000010000000020000060001000600010006000100000000000070000000040000cb680000010000000000040000000000";
"00100000000000000000100000000000001000000000000000000000100000000000000000000000845000003c00000000600000000400000040000048000000";
"00140000401c00000000000000000000302000001c00000000000000000000000000000000000000000000000000000000000000000000000000000000000000";
"00200000280000000000000000000000000000000000000000000000000000002e74657874000000a90300000010000000040000000400000000000000000000";
"00000000200000682e72646174610000b0000000002000000002000000080000000000000000000000000000400000482e646174610000001001000000300000";
"00020000000a0000000000000000000000000000400000c82e70646174610000480000000040000000020000000c000000000000000000000000000040000048";
"494e4954000000003a0100000050000000020000000e0000000000000000000000000000200000e22e7273726300000000040000006000000004000000100000";
"00000000000000000000000040000040000000000000000000000000000000000000000000000000000000000000000000000000000000000000000000000000";
"00000000000000000000000000000000000000000000000000000000000000000000000000000000000000000000000000000000000000000000000000000000";
"00000000000000000000000000000000000000000000000000000000000000000000000000000000000000000000000000000000000000000000000000000000";
"00000000000000000000000000000000000000000000000000000000000000000000000000000000000000000000000000000000000000000000000000000000";
"00000000000000000000000000000000000000000000000000000000000000000000000000000000000000000000000000000000000000000000000000000000";
"00000000000000004c8d051d00000041b950040000e9f8020000ccccccccccccb801000000c3cccccccccccc48895c2408574883ec20833a50488bfa488bd974";
"0ab8590000c0e92d01000041b9400000004533c0488bd1e8aa0200004533d2413bc20f8c10010000f6430980458d421f740df6430404b8ffffff7f440f45c0b8";
"3910000041b901000000663903750fb81355000066394302750444894f44b866110000663903750fb81102000066394302750444894f44b90210000041bb0200";
"000066390b755cb87943000066394302750444884f3266390b7548b87a43000066394302750444884f3266390b7534b88043000066394302750444084f336639";
"0b7520b89043000066394302740bb89143000066394302750a44385308750444085f334883c340488d4708498bd3498bcb4489034489004883c0044883c30449";
"2bc975ed492bd175e5488d053c0000004c8957204c89572848894718488d05dd00000044894f4048894748488d05aefeffff4889473833c0488b5c24304883c4";
"205fc3cccccccccccccccccc48895c24104889742418574881ec40010000488b055b1f00004833c448898424300100008bfa488d54243041b9000100004533c0";
"488bf1e83e01000033db3bc37c42b83910000066394424307536b8135500006639442432752a448d4b04448d434a488d542420488bcee80b010000f7df1ac980";
"e10280c102844c24200f95c38bc3eb05b802000000488b8c24300100004833cce88b0000004c8d9c2440010000498b5b18498b7320498be35fc3cccccccccccc";
"f6416a044c8bd1744666448b89b0000000418ac14584c9741633c9410fb6c14584c97406ffc1d1e875fa8d41ff8902418a82b100000084c074150fb6c033c985";
"c07406ffc1d1e875fa8d41ff41890033c0c3cccccccccccccccccccccccccccccccccccccccc66660f1f840000000000483b0d491e0000751248c1c11066f7c1";
"ffff7503c2000048c1c910e908000000cccccccccccccccc4883ec384c8b0d251e00004c8b05161e0000488364242000488bd1b9f7000000ff151a0d0000cccc";
"ccccccccccccff25fc0c0000ccccccccccccff25e80c0000cccccccccccccccc40534883ec20458b18488bda4c8bc94183e3f841f600044c8bd17413418b4008";
"4d635004f7d84c03d14863c84c23d14963c34a8b1410488b43108b480848034b08f641030f740c0fb6410383e0f048984c03c84c33ca498bc94883c4205be92d";
"ffffffcccccccccccccccccc4883ec284d8b4138488bca498bd1e881ffffffb8010000004883c428c30000000000000000000000000000000000000000000000";
"00000000000000000000000000000000000000000000000000000000000000000000000000000000000000000000000000000000000000000000000000000000";
"1a5100000000000006510000000000000000000000000000e850000000000000000000000000000000000000000000000000000015c15b4a0000000002000000";
"230000004c2000004c08000052534453cbe4b011cf30274c881a561fd8fd1951010000007063696964652e706462000001040100046200001924070012642c00";
"12342b00120128000b7000008c13000030010000010a04000a3406000a3206700106020006320230010401000442000000000000000000000000000000000000";
"00000000000000000000000000000000000000000000000000000000000000000000000000000000000000000000000000000000000000000000000000000000";
"00000000000000000000000000000000000000000000000000000000000000000000000000000000000000000000000000000000000000000000000000000000";
"00000000000000000000000000000000000000000000000000000000000000000000000000000000000000000000000000000000000000000000000000000000";
"00000000000000000000000000000000000000000000000000000000000000000000000000000000000000000000000000000000000000000000000000000000";
"00000000000000000000000000000000000000000000000000000000000000000000000000000000000000000000000000000000000000000000000000000000";
"00000000000100000000000000000000000000000000000000000000000000000000000000000000000000000000000000000000000000000000000000000000";
"00000000000000000000000000000000000000000000000000000000000000000000000000000000000000000000000000000000000000000000000000000000";
"00000000000000000000000000000000000000000000000000000000000000000000000000000000000000000000000000000000000000000000000000000000";
"00000000000000000000000000000000000000000000000000000000000000000000000000000000000000000000000000000000000000000000000000000000";
"32a2df2d992b0000cd5d20d266d4ffff000000000000000000000000000000000000000000000000000000000000000000000000000000000000000000000000";
"00000000000000000000000000000000000000000000000000000000000000000000000000000000000000000000000000000000000000000000000000000000";
"00000000000000000000000000000000000000000000000000000000000000000000000000000000000000000000000000000000000000000000000000000000";
"00000000000000000000000000000000000000000000000000000000000000000000000000000000000000000000000000000000000000000000000000000000";
"2c10000083110000942000008c1100003a12000078200000d8120000ff120000702000002013000083130000a02000008c130000a9130000a820000064500000";
"82500000a82000000000000000000000000000000000000000000000000000000000000000000000000000000000000000000000000000000000000000000000";
"00000000000000000000000000000000000000000000000000000000000000000000000000000000000000000000000000000000000000000000000000000000";
"00000000000000000000000000000000000000000000000000000000000000000000000000000000000000000000000000000000000000000000000000000000";
"00000000000000000000000000000000000000000000000000000000000000000000000000000000000000000000000000000000000000000000000000000000";
"00000000000000000000000000000000000000000000000000000000000000000000000000000000000000000000000000000000000000000000000000000000";
"00000000000000000000000000000000000000000000000000000000000000000000000000000000000000000000000000000000000000000000000000000000";
"00000000000000000000000000000000000000000000000000000000000000000000000000000000000000000000000000000000000000000000000000000000";
"0000000000000000488b05f1e0ffff48ba32a2df2d992b00004885c07405483bc2752f488d0dd6e0ffff48b82003000080f7ffff488b004833c148b9ffffffff";
"ffff00004823c1480f44c2488905aee0ffff48f7d0488905ace0ffffc3cccccccccccccc4883ec284c8bc24c8bc9e895ffffff498bd0498bc94883c428e986bf";
"ffffccccd85000000000000000000000f850000018200000c050000000000000000000002e510000002000000000000000000000000000000000000000000000";
"1a5100000000000006510000000000000000000000000000e8500000000000000000000000000000c8024b65427567436865636b457800006e746f736b726e6c";
"2e65786500003b005063694964655847657442757344617461003c0050636949646558496e697469616c697a6500504349494445582e53595300000000000000";
"00000000000000000000000000000000000000000000000000000000000000000000000000000000000000000000000000000000000000000000000000000000";
"00000000000000000000000000000000000000000000000000000000000000000000000000000000000000000000000000000000000000000000000000000000";
"00000000000000000000000000000000000000000000000000000000000000000000000000000000000000000000000000000000000000000000000000000000";
"00000000000000000000000000000100100000001800008000000000000000000000000000000100010000003000008000000000000000000000000000000100";
"0904000048000000606000009c030000000000000000000000000000000000009c0334000000560053005f00560045005200530049004f004e005f0049004e00";
"46004f0000000000bd04effe00000100010006000140b01d010006000140b01d3f000000000000000400040003000000070000000000000000000000fa020000";
"010053007400720069006e006700460069006c00650049006e0066006f000000d602000001003000340030003900300034004200300000004c00160001004300";
"6f006d00700061006e0079004e0061006d006500000000004d006900630072006f0073006f0066007400200043006f00720070006f0072006100740069006f00";
"6e0000005e001b000100460069006c0065004400650073006300720069007000740069006f006e0000000000470065006e006500720069006300200050004300";
"4900200049004400450020004200750073002000440072006900760065007200000000006c0026000100460069006c006500560065007200730069006f006e00";
"0000000036002e0031002e0037003600300030002e003100360033003800350020002800770069006e0037005f00720074006d002e0030003900300037003100";
"33002d0031003200350035002900000036000b00010049006e007400650072006e0061006c004e0061006d00650000007000630069006900640065002e007300";
"790073000000000080002e0001004c006500670061006c0043006f0070007900720069006700680074000000a90020004d006900630072006f0073006f006600";
"7400200043006f00720070006f0072006100740069006f006e002e00200041006c006c0020007200690067006800740073002000720065007300650072007600";
"650064002e0000003e000b0001004f0072006900670069006e0061006c00460069006c0065006e0061006d00650000007000630069006900640065002e007300";
"79007300000000006a0025000100500072006f0064007500630074004e0061006d006500000000004d006900630072006f0073006f0066007400ae0020005700";
"69006e0064006f0077007300ae0020004f007000650072006100740069006e0067002000530079007300740065006d000000000042000f000100500072006f00";
"6400750063007400560065007200730069006f006e00000036002e0031002e0037003600300030002e0031003600330038003500000000004400000001005600";
"61007200460069006c00650049006e0066006f00000000002400040000005400720061006e0073006c006100740069006f006e00000000000904b00400000000";
"401c00000002020030821c3406092a864886f70d010702a0821c2530821c21020101310b300906052b0e03021a05003068060a2b060104018237020104a05a30";
"583033060a2b06010401823702010f3025030100a020a21e801c003c003c003c004f00620073006f006c006500740065003e003e003e3021300906052b0e0302";
"1a050004149bd444d58b59cca832bb5fc911f81f6c66b40fcca0821709308204bb308203a3a003020102020a6104ca69000000000008300d06092a864886f70d";
"01010505003077310b3009060355040613025553311330110603550408130a57617368696e67746f6e3110300e060355040713075265646d6f6e64311e301c06";
"0355040a13154d6963726f736f667420436f72706f726174696f6e3121301f060355040313184d6963726f736f66742054696d652d5374616d7020504341301e";
"170d3037303630353232303332315a170d3132303630353232313332315a3081a4310b3009060355040613025553311330110603550408130a57617368696e67";
"746f6e3110300e060355040713075265646d6f6e64311e301c060355040a13154d6963726f736f667420436f72706f726174696f6e31273025060355040b131e";
"6e436970686572204453452045534e3a413542302d434445302d44433934312530230603550403131c4d6963726f736f66742054696d652d5374616d70205365";
"727669636530820122300d06092a864886f70d01010105000382010f003082010a0282010100aff85af634b1a20f8eaccffc18f0ad250d71bb5f5bb73b374113";
"241cea23c5aeac99c0dca623f0caa93330326a2f9a2142020926599b50e957718b67eb97e804738b78b1984046a35a01280016a0dac54e8ba9095491319cffc4";
"909545071d802805067180cbac386761ecc25f169d7fb03fd12af7326f733d7c6e98369a86ee0038ee17ec4f553346817a40dca5f5d223865d2b334f2448931a";
"b1b47ecfdf331bbfd55bc62f13f3e684b74e9398bc00eb5c1d69c5c8c8d2c43cb00014e3b29cf9a11e09dcd5f56d7c323133b28f599bfeca1f5d224eba121df0";
"67c304894b7f03fd7dd75481035d49f51eab207ed265b47119e84c7dc694bd85916d505ac3a90203010001a382011930820115301d0603551d0e041604149e8f";
"a874c142ee18cd3dbde9d6ee27b0c7353467301f0603551d230418301680142334f8d95246700aed40fb76fbb32bb0c335b30f30540603551d1f044d304b3049";
"a047a0458643687474703a2f2f63726c2e6d6963726f736f66742e636f6d2f706b692f63726c2f70726f64756374732f4d6963726f736f667454696d65537461";
"6d705043412e63726c305806082b06010505070101044c304a304806082b06010505073002863c687474703a2f2f7777772e6d6963726f736f66742e636f6d2f";
"706b692f63657274732f4d6963726f736f667454696d655374616d705043412e63727430130603551d25040c300a06082b06010505070308300e0603551d0f01";
"01ff0404030206c0300d06092a864886f70d0101050500038201010067a5df2851dc4883fdc665f95dfa66aab28da7569da248be32ac6d970f4f0c44bbbb18f4";
"90e7e27dc57400d686f391c0d0d105895e628bfa68f765cfe653a9df741221ad8c15b4a6ca4393c96be14ab2ed0fceb48a3a7ff7b5ccbc129a7bcf04c43fd90a";
"2c753c929ecf0636620e0217e69927f7fb71efff5a7a6155baba9887eb71ac76f5e8869f3667504178fc33a4d5697301c870236b7ca357c86807e45b41c1f826";
"fd69490399d6afc93fa4f59c4cf90a9dd2cd4bbf7dfa1690ec3b7149fe0415cae26ada690bb4933e34fecaec8049e4b27418cc91e73e4eb77bf5408f645bd450";
"d5394d53cdbed45e47825bd15a7a992e46706b07850d6c0913630f75308205963082047ea003020102020a6101c6c1000000000007300d06092a864886f70d01";
"01050500308181310b3009060355040613025553311330110603550408130a57617368696e67746f6e3110300e060355040713075265646d6f6e64311e301c06";
"0355040a13154d6963726f736f667420436f72706f726174696f6e312b3029060355040313224d6963726f736f66742057696e646f7773205665726966696361";
"74696f6e20504341301e170d3038313032323230333932325a170d3130303132323230343932325a307f310b3009060355040613025553311330110603550408";
"130a57617368696e67746f6e3110300e060355040713075265646d6f6e64311e301c060355040a13154d6963726f736f667420436f72706f726174696f6e310d";
"300b060355040b13044d4f5052311a3018060355040313114d6963726f736f66742057696e646f777330820122300d06092a864886f70d01010105000382010f";
"003082010a0282010100dc3ad344f46e209fdda40e824ec7865e63cccae542534b85fa5d716ccf760c188ba60df54af7fe17f290cc62c724ad9b9ae1453b61d8";
"0d0569c7cd882ab8b9181e60105f88c6d2824e6d49c5be5c12864885899181cd1bad1fb72d6779f17b9f258714765fe30e64a1726125e57569c514f15f0756a4";
"0d700623a76cdd82aed99b47a4a56c08b058f1536a4fda8561cb027b49af1fbbe0d7b95edb738976c13abb0df597f0885d697780cff17e039f736dde05b82f77";
"b5545545d0d238bd96e3f7ea40e5ac19fc71cb2827aa71a172b51227c151f636c5c0c77b3a3a933704ccee0b6978647541b678220f7784f74b8d4665925b4d56";
"6b7504463f0b1bb419bf0203010001a382020f3082020b301f0603551d250418301606082b06010505070303060a2b0601040182370a0306301d0603551d0e04";
"160414a1e6c365d0e6e82862c2f3c223a61c49820bd553300e0603551d0f0101ff040403020780301f0603551d23041830168014908b11a570ede0f9a9c0ac08";
"c7b5f482b13cc54a307b0603551d1f047430723070a06ea06c8634687474703a2f2f63726c2e6d6963726f736f66742e636f6d2f706b692f63726c2f70726f64";
"756374732f57696e5043412e63726c8634687474703a2f2f7777772e6d6963726f736f66742e636f6d2f706b692f63726c2f70726f64756374732f57696e5043";
"412e63726c305206082b0601050507010104463044304206082b060105050730028636687474703a2f2f7777772e6d6963726f736f66742e636f6d2f706b692f";
"63657274732f4d6963726f736f667457696e5043412e6372743081c60603551d200481be3081bb3081b806092b060104018237152f3081aa304006082b060105";
"05070201163468747470733a2f2f7777772e6d6963726f736f66742e636f6d2f706b692f73736c2f6370732f57696e646f77735043412e68746d306606082b06";
"010505070202305a1e580043006f0070007900720069006700680074002000a900200031003900390039002d00320030003000350020004d006900630072006f";
"0073006f0066007400200043006f00720070006f0072006100740069006f006e002e300d06092a864886f70d01010505000382010100735fca801c60466fb934";
"9d88e3be228cfae6589aab7b1a97fded2e39cc595b1d7a068abb43937b1ea18853df44f853a9eaf6671b3a7884116a6f2947900a0c7b22774e6fb86429df06c7";
"c87384d666a0cad95a268257f9e34f39af2e8eb1065b72f23732ae4ece3c7db0122b9ea575e343a6128b06149877e358322560078c5971a77141b3068d5cef9c";
"7f5a226db7d3d9f5a61b52def57e767cfef4c8231a4b25ebe4eeaf100b55c3d8c11785616fd33fb6e9ec84a5ee6db2ffe86c95ab2b5ec885c31160acfa0205f1";
"7bdac3694996a570f9656646108d34e921943c0f714a1cea1ff723a6876034e914e1de0359b4021d3aafe35505f5edc1f4e45d0ed39730820607308203efa003";
"020102020a6116683400000000001c300d06092a864886f70d0101050500305f31133011060a0992268993f22c6401191603636f6d31193017060a0992268993";
"f22c64011916096d6963726f736f6674312d302b060355040313244d6963726f736f667420526f6f7420436572746966696361746520417574686f7269747930";
"1e170d3037303430333132353330395a170d3231303430333133303330395a3077310b3009060355040613025553311330110603550408130a57617368696e67";
"746f6e3110300e060355040713075265646d6f6e64311e301c060355040a13154d6963726f736f667420436f72706f726174696f6e3121301f06035504031318";
"4d6963726f736f66742054696d652d5374616d702050434130820122300d06092a864886f70d01010105000382010f003082010a02820101009fa16cb1dfdb48";
"922a7c6b2e19e1bde2e3c599512350adcedd184e240feed1a7d14cad74302011eb07d554951549941b4292ae985c3026da006be87bbdec89070ff70e0498f089";
"cc1fcb3324879df2f4671c2cfc7be7881deae74ea3a1c12353ca8dfa45cf09d05eafd0b04204a2f9a66c9367d728dc4653b086d0e528462e27ac864f55520ce4";
"032cfb6a9090306e87f359309dfa7ed697b3e821977ef8d213f308b7536d52b445909f48004a476611272966a897e4d306814aa2f984a711471409829f84ed55";
"78fe019a1d50088500103046edb7de2346bbc42d549faf1e78413177cc9bdf3b8393a16102b51d0db1fcf79bb201ce224b54fff905c3c2200b0203010001a382";
"01ab308201a7300f0603551d130101ff040530030101ff301d0603551d0e041604142334f8d95246700aed40fb76fbb32bb0c335b30f300b0603551d0f040403";
"020186301006092b060104018237150104030201003081980603551d2304819030818d80140eac826040562797e52513fc2ae10a539559e4a4a163a461305f31";
"133011060a0992268993f22c6401191603636f6d31193017060a0992268993f22c64011916096d6963726f736f6674312d302b060355040313244d6963726f73";
"6f667420526f6f7420436572746966696361746520417574686f72697479821079ad16a14aa0a5ad4c7358f407132e6530500603551d1f044930473045a043a0";
"41863f687474703a2f2f63726c2e6d6963726f736f66742e636f6d2f706b692f63726c2f70726f64756374732f6d6963726f736f6674726f6f74636572742e63";
"726c305406082b0601050507010104483046304406082b060105050730028638687474703a2f2f7777772e6d6963726f736f66742e636f6d2f706b692f636572";
"74732f4d6963726f736f6674526f6f74436572742e63727430130603551d25040c300a06082b06010505070308300d06092a864886f70d010105050003820201";
"0010978ac35c034436dde9b4ad77dbce79514d01b12e74715b6d0c13abcebe7b8fb82ed412a28c6d62b85702cb4e20135099dd7a40e257bbaf589a1ce11d0186";
"acbb78f28bd0ec3b01eee2be8f0a05c88d48e2f05315dd4fab92e4e78d6ad580c1e694f2062f8503e9912a242270fbf6fce478992e0df707e270bc184e9d8e6b";
"0a7295b8a1399c672dc5510eea625c3f16988b203fe2071a32f9cc314a76313d2b720bc8ea703dff850a13dfc20a618ef0d7b817eb4e8b7fc5352b5ea3bfebbc";
"7d0b427bd4537221ee30cabb78655c5b01170a140ed2da1498f53cb96658b32d2fe7f98586cc5156e89d70946cac394cd4f679bfaa187a6229efa29b29340677";
"1a62c93d1e6d1f82f00bc72cbbcf43b3e5f9ec7db5e3a4a87435b84ec571231226760b3c528c715a464314bcb3b3b04d67c89f42ff807921809e153066e84212";
"5e1ac89e2221d043e92be9bbf448cc2cd4d832804c262a48245f5aea56efa6de999dca3a6fbd8127740611ee7621bf9b82c12754b6b16a3d89a17661b46ea113";
"a6bfaa47f0126ffd8a326cb2fedf51c88c23c966bd9d1d871264023d2daf598fb8e421e5b5b0ca63b4785405d4412e50ac94b0a578abb3a096751ad992871375";
"222f32a8086ea05b8c25bfa0ef84ca21d6eb1e4fc99aee49e0f701656f890b7dc869c8e66eeaa797ce3129ff0ec55b5cd84d1ba1d8fa2f9e3f2e55166bc913a3";
"fd308206a130820489a003020102020a610702dc00000000000b300d06092a864886f70d0101050500305f31133011060a0992268993f22c6401191603636f6d";
"31193017060a0992268993f22c64011916096d6963726f736f6674312d302b060355040313244d6963726f736f667420526f6f74204365727469666963617465";
"20417574686f72697479301e170d3035303931353231353534315a170d3136303331353232303534315a308181310b3009060355040613025553311330110603";
"550408130a57617368696e67746f6e3110300e060355040713075265646d6f6e64311e301c060355040a13154d6963726f736f667420436f72706f726174696f";
"6e312b3029060355040313224d6963726f736f66742057696e646f777320566572696669636174696f6e2050434130820122300d06092a864886f70d01010105";
"000382010f003082010a0282010100c5ac934ee64a119e37d035d2b0065c8314a56192fcfeb389c1e6cdc81f318409913446922cb8ee2cc52073c4e81ad88dce";
"7a68b566788be56015a2f6295a1d5e5dfc62d3c15c2989fb33f8169536ddb14674697253d5aae88a991ad8f76709d9092022387ad60323d7899f1c01b751df98";
"662a028b06ece429ef5b42171597518d7d250aaf25e8dedc9b67160a56739db31d85830b7e332b6233ce1c20814b5ed3c649b8f62ed34eb0714446643ede4366";
"04b9cc83483ac5367a04480b89023d63a20176299775e901e600970992f8e227f029674377c350965331e1b6718bec77c77c3148d5b825228c00f728387abd7c";
"c73fcd402677dd0000119a95be1fdb0203010001a382023a30820236301006092b06010401823715010403020100301d0603551d0e04160414908b11a570ede0";
"f9a9c0ac08c7b5f482b13cc54a300b0603551d0f0404030201c6300f0603551d130101ff040530030101ff3081980603551d2304819030818d80140eac826040";
"562797e52513fc2ae10a539559e4a4a163a461305f31133011060a0992268993f22c6401191603636f6d31193017060a0992268993f22c64011916096d696372";
"6f736f6674312d302b060355040313244d6963726f736f667420526f6f7420436572746966696361746520417574686f72697479821079ad16a14aa0a5ad4c73";
"58f407132e6530500603551d1f044930473045a043a041863f687474703a2f2f63726c2e6d6963726f736f66742e636f6d2f706b692f63726c2f70726f647563";
"74732f6d6963726f736f6674726f6f74636572742e63726c305406082b0601050507010104483046304406082b060105050730028638687474703a2f2f777777";
"2e6d6963726f736f66742e636f6d2f706b692f63657274732f4d6963726f736f6674526f6f74436572742e6372743081800603551d2004793077307506092b06";
"0104018237152f3068306606082b06010505070202305a1e580043006f0070007900720069006700680074002000a900200031003900390039002d0032003000";
"3000350020004d006900630072006f0073006f0066007400200043006f00720070006f0072006100740069006f006e002e301f0603551d250418301606082b06";
"010505070303060a2b0601040182370a0306300d06092a864886f70d010105050003820201002531a158ea52e5e1170ce6f13f78a33f72afa757105389105e32";
"9cb670c3152b4d153034e8c06ae41cd32e206548d71b986221ba459f4aecdb2f091951e5ed3219512fe1ddfbc652fdebc68225420309a638b6361fccc980bb5a";
"691831c3b3a0b36747be9dc7e23f96b388f819be39b9e995cefc7cafa8cdd04190e0d5b31c2f68bbdb0f6c6addf2afdef2b5de0db6a65af0860ab96d994b3f7b";
"2d01846c8f87dc7f8fab1488d0069134be1b8222a4bc558aad9bfc731410c4c9191e077d9b0ec095265dc61facb4f27eba25704a7bd78ed19da013497ab00252";
"5224f4afdd402de53e3258b34a6add1159aa2dbca4a07338f940776b341957cd38682782f8d16feb23c03f52f34ed5023e6a9a2bc1f53171db414d3bdeefadaf";
"1f8865431b51b79a75ca8e6949108f788a7445b9098e737707324a4bd7682b98c5ba54ea3fcba2008cbbd81058f2dbdc9bcdd8ea4843e24a7e65b2dcf52d4e25";
"67a8e0b5baa7dd7e5ec14c0274c9b36ee3f8f00bedfcb929c55bc9365190db787db9320f5e76d2155c3b3721c6dbc9196eed742a5c2c0b51494553b0b2b323d4";
"a1b05f0d19cd14a7e33c9b97729414dfffc1901ba5dff5a9f31b17dab5fc44e0e8e23ca27abbbb65e64db1b515a1d9673bb00c7d3be9ee512a47f5150f8cad5d";
"2e35dff4a42ef613375a2be8559a492c97ce9d019e97465cd92dbc245a95596f4dca9dd657263182049630820492020101308190308181310b30090603550406";
"13025553311330110603550408130a57617368696e67746f6e3110300e060355040713075265646d6f6e64311e301c060355040a13154d6963726f736f667420";
"436f72706f726174696f6e312b3029060355040313224d6963726f736f66742057696e646f777320566572696669636174696f6e20504341020a6101c6c10000";
"00000007300906052b0e03021a0500a081ba301906092a864886f70d010903310c060a2b060104018237020104301c060a2b06010401823702010b310e300c06";
"0a2b060104018237020115302306092a864886f70d01090431160414cd3ff688be317fad754b0af54299c6ab81c93219305a060a2b06010401823702010c314c";
"304aa0248022004d006900630072006f0073006f00660074002000570069006e0064006f00770073a1228020687474703a2f2f7777772e6d6963726f736f6674";
"2e636f6d2f77696e646f7773300d06092a864886f70d0101010500048201009de70f60e4c209b3353f934f08f6419f0e697589a137f380a69c907733713923a6";
"3e298ebf98f83dee8a65831b7c0b7bd70968127d037e0d1b2f4bec3d592dfcc28b3890767dde6b31b53788909683b53121a9d71587fa12c184f091800e237248";
"8a049752bafec3eba1db60083c310a3e2a7caeee78f4cd02623700cf332f133e527bdfa0cb84a6635267c8620db07c3d3adf354d260c2a4e83e92da020ee295a";
"4aad44b93509a40fa22863e9dbd03bcb30dd217b7dec8a2fe3fadf391a61f845469e43d448ba543e349f8873695d85aede76f47b96380b0d11a45e2f714ef1d9";
"6e7e00a44ac088e4f002ae5c94d60dbf27df535108d22418d0ba2291e7c40ba182021d3082021906092a864886f70d0109063182020a30820206020101308185";
"3077310b3009060355040613025553311330110603550408130a57617368696e67746f6e3110300e060355040713075265646d6f6e64311e301c060355040a13";
"154d6963726f736f667420436f72706f726174696f6e3121301f060355040313184d6963726f736f66742054696d652d5374616d7020504341020a6104ca6900";
"0000000008300706052b0e03021aa05d301806092a864886f70d010903310b06092a864886f70d010701301c06092a864886f70d010905310f170d3039303731";
"343031343535355a302306092a864886f70d0109043116041480d1dbd80d9b9161c39c24b56dcd852262f5751f300d06092a864886f70d010105050004820100";
"86ec3424f69dc4e933c665a3021b342b8f3147daf8b1d9cd5b0bb254ef1c93b867b10e3f40fa6d40a5bfbf0d2225fd9aa75304fb6b9bd33f4b0091e2610234d3";
"9ba985164245fc8b7e5ac175e84cb40fbee64d94dcafe2a9e8188a467ccfea61aa55c1ddb48f6aa669a4d1336e2528be96f5fd7388e14825c37c2e31e6f74785";
"43c8a73b450ee75c5bef3d0b7f9196cabaf25c26a8b7a926c739f778ffdd9df0f243ece2ff715fe9cdb385b414f49981df20771cab4d027eeb95942ce4fd21c9";
"ffc7eaae9f2257c5bd6404d0e1e11f8f8a9ebd04a3076fcbb1d697d82d4cf03575bce7b288cba26ed0116dde9e2bf4a7d379b0b68c58a6a44b146a6030ffa0ff"].

(** tests/test_data/kdbazis.dll *)
Definition kdbazis_hex : list string := [
"4d5a90000300000004000000ffff0000b800000000000000400000000000000000000000000000000000000000000000000000000000000000000000e0000000";
"0e1fba0e00b409cd21b8014ccd21546869732070726f6772616d2063616e6e6f742062652072756e20696e20444f53206d6f64652e0d0d0a2400000000000000";
"23ea65f8678b0bab678b0bab678b0babc2e208aa658b0bab678b0aab638b0bab111670ab628b0bab111676ab668b0babc2e20eaa648b0babc2e20baa668b0bab";
"c2e2f4ab668b0babc2e209aa668b0bab52696368678b0bab0000000000000000504500006486070048e657600000000000000000f00022200b020e1000200000";
"0014020000000000701300000010000000000080010000000010000000020000050002000000000005000200000000000090020000040000fe01010001006001";
"000010000000000000100000000000000000100000000000001000000000000000000000100000000060020060010000007002003c00000000800200f8030000";
"00500200b400000000340000301500000000000000000000303000001c0000000000000000000000000000000000000000000000000000000000000000000000";
"000000000000000000300000300000000000000000000000000000000000000000000000000000002e74657874000000ea1f0000001000000020000000040000";
"000000000000000000000000200000682e72646174610000c0020000003000000004000000240000000000000000000000000000400000482e64617461000000";
"3e040200004000000002000000280000000000000000000000000000400000c82e70646174610000b40000000050020000020000002a00000000000000000000";
"00000000400000482e65646174610000600100000060020000020000002c000000000000000000000000000040000040494e495400000000da00000000700200";
"00020000002e0000000000000000000000000000400000ca2e72737263000000f803000000800200000400000030000000000000000000000000000040000042";
"00000000000000000000000000000000000000000000000000000000000000000000000000000000000000000000000000000000000000000000000000000000";
"00000000000000000000000000000000000000000000000000000000000000000000000000000000000000000000000000000000000000000000000000000000";
"00000000000000000000000000000000000000000000000000000000000000000000000000000000000000000000000000000000000000000000000000000000";
"00000000000000000000000000000000000000000000000000000000000000000000000000000000000000000000000000000000000000000000000000000000";
"cccccccccccc666666906666669066904c8bd9482bd10f869c0100004983f8087262f6c1077437f6c101740c8a040a49ffc888014883c101f6c102740f668b04";
"0a4983e8026689014883c102f6c104740d8b040a4983e80489014883c1044d8bc849c1e90575504d8bc849c1e9037414488b040a4889014883c10849ffc975f0";
"4983e0074d85c07507498bc3c36666908a040a880148ffc149ffc875f3498bc3c3666666906666669066666690666690666666906666904981f9000800007342";
"488b040a4c8b540a084883c120488941e04c8951e8488b440af04c8b540af849ffc9488941f04c8951f875d44983e01fe972ffffff6666669066666690666690";
"66904881fa0010000072b5b8200000000f18040a0f18440a404881c180000000ffc875ec4881e900100000b8400000004c8b0c0a4c8b540a084c0fc3094c0fc3";
"51084c8b4c0a104c8b540a184c0fc349104c0fc351184c8b4c0a204c8b540a284883c1404c0fc349e04c0fc351e84c8b4c0af04c8b540af8ffc84c0fc349f04c";
"0fc351f875aa4981e8001000004981f8001000000f8371fffffff0800c2400e9bafeffff6666669066666690666666906666669066666690746f4903c84983f8";
"087261f6c1077436f6c101740b48ffc98a040a49ffc88801f6c102740f4883e902668b040a4983e802668901f6c104740d4883e9048b040a4983e80489014d8b";
"c849c1e90575504d8bc849c1e90374144883e908488b040a49ffc948890175f04983e0074d85c07507498bc3c366669048ffc98a040a49ffc8880175f3498bc3";
"c3666666906666669066666690666690666666906666904981f9000800007342488b440af84c8b540af04883e920488941184c895110488b440a084c8b140a49";
"ffc9488941084c891175d54983e01fe973ffffff66666690666666906666669066904881fa00f0ffff77b5b8200000004881e9800000000f18040a0f18440a40";
"ffc875ec4881c100100000b8400000004c8b4c0af84c8b540af04c0fc349f84c0fc351f04c8b4c0ae84c8b540ae04c0fc349e84c0fc351e04c8b4c0ad84c8b54";
"0ad04883e9404c0fc349184c0fc351104c8b4c0a084c8b140affc84c0fc349084c0fc31175aa4981e8001000004981f8001000000f8371fffffff0800c2400e9";
"bafeffffcccccccccccccccccccccccc33c0c3ccccccccccccccccccccccccccb8bb0000c0c3cccccccccccccccccccce9fc010000535657b868584d56bb5250";
"43c94c8bc1b91e000000ba58560000eff7c100000100741541893041897804418950085f5e5b4833c048ffc0c3ba58560000ed3d56424f5874075f5e5b4833c0";
"c35f5e5b4833c04883c002c35657b868584d568b510881ca585600008b318b7904b91e000600ef81f9000001005f5e0f94c04883e001c3535657b868584d568b";
"da8b510881ca585600008b318b7904b91e000100ef81f900008100750a5f5e5b4833c048ffc0c35f5e5b4833c0c353565755b868584d564887cabb0000010049";
"8bf08b7a048b2a8b520881ca59560000f36e81fb00000100750b5d5f5e5b4833c048ffc0c35d5f5e5b4833c0c353565755b868584d568bda8b510881ca585600";
"008b318b79044c8bc9b91e000100ef81f900008100753087cbbb00000100498bf0418b510881ca59560000418b7904418b29f36e81fb00000100750b5d5f5e5b";
"4833c048ffc0c35d5f5e5b4833c0c3535657b868584d568b510881ca585600008b318b79044c8bc1b91e000300ef4189500c81f90000830074044883cbff935f";
"5e5bc353565755b868584d56bb000001004887ca498bf88b328b6a048b520881ca59560000f36c81fb00000100750b5d5f5e5b4833c048ffc0c35d5f5e5b4833";
"c0c3535657b868584d568b590c8b510881ca585600008b318b7904b91e000500ef81f9000001005f5e5b0f94c083e001c3ff25891a0000cccccccccccccccccc";
"40534883ec208b4120488bd983f80375098b411c4883c4205bc3488974243048897c243883f8010f85990000008b411c3941180f858d000000488d35602a0000";
"85c0751548c7c0ffffffff0f1f44000048ffc0803c060075f78bd04c8bc6c74110ffffffffe883feffff84c074588b4310c743200200000083f8ff750b488bcb";
"e8cafeffff89431089431c85c07437bf000402003bc7772e83f8ff74293bc773068bf885c0743a8bd74c8bc6488bcbe8cffeffff84c07523c74308ffffffffc7";
"4310ffffffff488b742430b8ffffffff488b7c24384883c4205bc3297b108b431c488b742430488b7c2438c7432003000000c74318000000004883c4205bc3cc";
"4881ec3802000033c0488d0d90290000488905912d0200488905922d02008905942d0200668905912d020089056f2d0200ff1569190000f20f10054129000033";
"d28bc8f20f11055d290000c7054b2900000d000000c7054529000000040200c6054a29000076c705412900000000e507e8eb1800008b152529000083c20483fa";
"130f85100300000fb7051629000033c983fa0666894424200f94c183c1023c310f85f1020000807c2421200f85e602000083fa060f84dd0200008d42fa83f809";
"0f82d1020000f20f1005d828000083fa0f440fb605d5280000b8030000000f44c8f20f11442420488b442420483b059d2800000f859e020000443a0598280000";
"0f859102000083f90275218d42f183f8047219813d922800000000e507730db813a000c04881c438020000c348899c24400200004889ac2448020000488d2d6c";
"2800004889b4245002000033f64889bc24580200004c89b424300200004c8d354d2800000f1f40000f1f840000000000488d0d29280000ff1523180000488bd8";
"33ff33c90f1f40000f1f8400000000004863c1884c0430ffc181f90002000072eff20f1005d7270000488d4c2430f20f1105f2270000498bc6c705dd27000009";
"020000ba04000000c705d227000000040200c605d7270000740f1f8000000000488d80800000000f10010f104910488d89800000000f1140800f1041a00f1148";
"900f1049b00f1140a00f1041c00f1148b00f1049d00f1140c00f1041e00f1148d00f1049f00f1140e00f1148f04883ea0175ad8bcbe826170000448b055f2700";
"004183c004418d40fc3d0b0200000f853c01000083f80b0f8233010000f20f10053f2700000fb705402700000fb60d3b270000f20f11442430807c2430316689";
"442438884c243a0f8503010000488b442432483b05f72600000f85f10000003a0df32600000f85e50000004183f80f0f84db000000418d40f13d000200000f82";
"cc000000488d442430488bcdba04000000488d80800000000f10010f104910488d89800000000f1140800f1041a00f1148900f1049b00f1140a00f1041c00f11";
"48b00f1049d00f1140c00f1041e00f1148d00f1049f00f1140e00f1148f04883ea0175ad4181f80f020000756333c0904863d00fb6c880f155384c14307551ff";
"c03d000200007ce8ffc783ff320f8c2ffeffffffc683fe020f8c12feffff33c0488bbc2458020000488bb42450020000488bac2448020000488b9c2440020000";
"4c8bb424300200004881c438020000c3b8360200c0ebc9b8360200c04881c438020000c3cccccccccccccccccccccccc85c97508488bcae97414000033c0c3cc";
"48895c2420894c240855565741544157488d6c24d14881eca00000004d8be14d8bf8488bfaf0ff05b4290200488d4db7c645cb00e8fcf8ffff83e801740f83f8";
"0175038845cbc745bffffffffff20f10056b25000033c0488b5d7fba05000000488945cfbe040000008945d78bce488b0563150000c745c7ffffffff4c89ac24";
"d80000004c89b424e000000080380048b8d402000080f7ffffc645af720f45ca0fb600c1e0080bc8c745cf110000008b455f4885ff890d322500008905282500";
"00894df3488d0d1d290200488bc1c745d31f000000480f45c7c745d701000000f20f1105f82400004d85ffc605f624000072490f45cf4885db8b00c745cf1500";
"00008905e92400008b01488d0de7280200480f45cbc745cf190000008905d32400008b018905cf2400000fb74104488d4db7668905c4240000c745cf1f000000";
"e8fbf9ffff8945ef8d48d283f9d07777448b45d74183f803756d8b55d38bca448b4dcf412bc983f902725c418d49023bca894dcf4c8d3565240000430fb70431";
"440f44c6448945d7668945df3c317537807de02075314183f803752b8bc22bc183f8097222f2420f100431460fb65c310883c109f20f1145df44885de7894dcf";
"3bca75418975d7bb02000000488d4db7e8b7f7fffff0ff0d042802008bc3488b9c24e80000004c8bb424e00000004c8bac24d80000004881c4a0000000415f41";
"5c5f5e5dc38bc22bc183f80172b9460fb61431ffc1448855af448bc9894dcf3bca7506448bc68975d7488b45df483b059c2300007591443a1d9b230000758841";
"80fa7275824183f8030f8578ffffff412bd13bd60f826dffffff8bc14885ff488d4d17480f45cf428b043089018b4dcf8b45d303ce894dcf3bc80f8444ffffff";
"443945d70f853dffffff2bc13bc60f8233ffffff8bc14d85ff488d4d17490f45cf428b043089018b4dcf8b45d303ce894dcf3bc80f840affffff443945d70f85";
"03ffffff2bc183f8060f82f8feffff8bd14885db488d4d0f480f45cb428b04328901420fb744320466894104448b4dcf448b45d34183c10644894dcf453bc80f";
"84bffeffff8b55d783fa030f85b6feffff418bc0412bc183f8140f82a7feffff430f100c31438b5c31104183c1148b45ef453bc8660f6fc1895d070f44d6660f";
"73d8080f114df744894dcf660f73d90c66410f7ece660f7ec68955d7458bee448bd6498d4e2e4903ca483bc10f8555feffff4885ff7461488b4f084885c97458";
"0fb747023bc6725085f6744c83fa030f8532feffff452bc1413bf00f8726feffff418bd1488d05352200004803d0458bc2e81af2ffff448b4dcfbf040000008b";
"55d74403ce448b45d3453bc844894dcf0f44d78955d7eb05bf040000004d85ff7457498b4f084885c9744e410fb74702413bc672444585f6743f83fa030f85c4";
"fdffff452bc1453bf00f87b8fdffff418bd1488d05c72100004803d04d8bc5e8acf1ffff8b45cf8b55d74103c63b45d38945cf0f44d78955d74d85e474078b45";
"fb4189042483fa040f8579fdffff488d4db7e8abf6ffff84c00f8468fdffff0fb65507488b0d6e11000080e201c745c7ffffffffc745d7000000008811f6c304";
"740fc1eb080fb6c3a2d402000080f7ffff8b5df7e933fdffffcccccccccccccc48895c24104c894c2420894c240855565741544155415641574881ec90000000";
"4d8be04c8beaf0ff0513250200488d0d0c210000ff1506110000488b0df7100000ba05000000f20f1005d220000041ba04000000488bb424f000000048894424";
"7880390048b9d402000080f7ffffc644242072440f45d2488d15ca2402000fb609c1e108440bd1c705af2000001f0000008b8c24d00000004d85ed890db02000";
"00488bca490f45cdc7059220000000040200f20f11058e2000004d85e4c6058c20000072490f45d4448915862000008b094885f6890d7f20000044895424388b";
"0a488d1570240200480f45d6890d6b2000008b0a890d672000000fb74a0433d266890d5e2000008bc8e8f20f00008b1d2c20000083c304448d53fc418d42d283";
"f8d00f878a0200004183fa020f82800200000fb7050b20000033ff83fb066689442428400f94c783c7023c310f8560020000807c2429200f855502000083fb06";
"0f844c0200008d43fa83f8090f8240020000f20f1005cc1f00000fb60dcd1f0000f20f11442428884c243083fb0f0f841e0200008d43f183f8010f8212020000";
"488b44242883fb100fb615a01f000041b803000000410f44f888542420483b056c1f00000f85e80100003a0d681f00000f85dc01000080fa720f85d301000083";
"ff020f85ca0100008d43f083f8040f82be0100008b05561f0000488d4c24604d85ed490f45cd890183fb140f84a10100008d43ec83f8040f82950100008b0531";
"1f0000488d4c24604d85e4490f45cc890183fb180f84780100008d43e883f8060f826c0100008b050c1f0000488d4c24584885f6480f45ce89010fb705fb1e00";
"006689410483fb1e0f84440100008d43e283f8140f82380100000f100ddd1e00008b35e71e000041bf32000000413bdf418bc2660f6fc189742450410f44f866";
"0f73d8080f114c2440660f73d90c66410f7ece660f7ec5458bce448bc5498d4e2e4903c8483bc10f85e50000004d85ed744a498b4d084885c97441410fb74502";
"3bc5723885ed743483ff020f85c10000008d43ce3be80f87b6000000488d156f1e0000e828eeffff448d7d32458bce443bfbbd030000000f44fdeb05bd030000";
"004d85e47447498b4c24084885c9743d410fb7442402413bc672324585f6742d83ff02756d8bc3412bc7443bf07763488d05ea1d0000418bd74803d04d8bc1e8";
"ccedffff438d043e3bc30f44fd488b8c24e80000004885c974068b442444890183ff03752d0fb6542450488b0da70d000080e201881140f6c6047410c1ee0840";
"0fb6c6a2d402000080f7ffff8b442440eb05b802000000f0ff0d82210200488b9c24d80000004881c490000000415f415e415d415c5f5e5dc3cccccccccccccc";
"48895c2420894c24085556574154415541564157488bec4883ec704d8be14d8bf84c8bea8bf933dbf0ff0531210200488d4dd8885dece87af0ffff83e801740f";
"83f80175038845ecc745e0ffffffff488b05020d0000ba04000000c745e8ffffffff8bf348c745f000000000448bf3895df8803800b805000000c64548730f45";
"d048b8d402000080f7ffff0fb600c1e0080bd08955504d85ed7405410fb775004d85ff7404450fb737458d0436418d582781fb000402000f8707030000895df4";
"c745f80100000083fb080f82f4020000f20f1005681c00008d43f8f20f11057d1c0000c745f00800000083f8010f82d10200008d43f7c6056b1c000073c745f0";
"0900000083f8040f82b70200004d85ed488d0d51200200488bc1490f45c58b008905431c00008d43f3c745f00d00000083f8040f828b0200004d85ff488bc149";
"0f45c78b008905221c00008d43efc745f01100000083f8060f82660200004d85e4897dc8488d0d0d2002008975cc490f45cc448975d08955d48b018905f01b00";
"000fb74104668905e91b00008d43e9c745f01700000083f8100f8225020000bf27000000897df00f1045c80f1105c51b000085f67422413bf00f870502000049";
"8b5508488d0dbd1b0000448bc6e87eebffff8d7e27897df04585f6742b2bdf443bf30f87dc010000498b5708488d1d6d1b00008bcf4803cb458bc6e850ebffff";
"4103fe897df0eb07488d1d511b0000488d4dd8e8a8f0ffff83f8160f85a30100008b55f883fa030f85970100008b4df48bc1448b45f0412bc083f8020f828201";
"0000410fb70418be040000004183c002668945b8443bc1448945f00f44d68955f83c310f855b010000807db9200f855101000083fa030f85480100008bc1412b";
"c083f8090f823a010000f2410f100418450fb65c18084183c009f20f1145b844885dc0448945f0443bc10f84110100008bc1412bc083f8010f8206010000450f";
"b6141841ffc044885548458bc8448945f0443bc175058bd68955f8488b45b8483b056a1a00000f85d8000000443a1d651a00000f85cb0000004180fa730f85c1";
"00000083fa030f85b8000000412bc983f9060f82ac000000418b0418488d4db04d85e4490f45cc8901410fb7441804668941048b4df08b55f483c106894df03b";
"ca747e837df803757b8bc22bc13bc672738b1c198d4104895d508945f03bc27563488d4dd88975f8e815efffff84c07453488b05e00900000fb6cb80e101c745";
"e8ffffffffc745f80000000088084084de741148b9d402000080f7ffff8bc3c1e8088801f6c302741b488d4dd8e85aedfffff0ff0da71d02008b7d40e965fcff";
"ff8975f8488d4dd8e83fedfffff0ff0d8c1d0200488b9c24c80000004883c470415f415e415d415c5f5e5dc3cccccccc48895c2420894c240855565741544155";
"415641574883ec604d8be14d8bf84c8bea8bf148bfd402000080f7ffff488d0d3c190000f0ff05351d0200ff152f09000033edc68424a800000073488bd84889";
"442450488b050e0900004533f6ba04000000403828b8050000000f45d00fb607c1e0080bd0899424b00000004d85ed7405410fb76d004d85ff7404450fb7378d";
"45274103c63df80302000f87a70200008905ca1800008d7808c705c11800000004020083f8080f828b020000f20f10058c1800008d47f0f20f1105a918000083";
"f8010f826f0200008d47efc6059e1800007383f8040f825c0200004d85ed488d0d831c0200488bc1490f45c58b0089057d1800008d47eb83f8040f8237020000";
"4d85ff488bc1490f45c78b008905631800008d47e783f8060f82190200004d85e489742438488d0d4c1c0200896c243c490f45cc4489742440895424448b0189";
"05341800000fb741046689052d1800008d47e183f8100f82db010000be2f0000000f104424380f11051218000085ed74218d47d13be80f87bb010000498b5508";
"488d0d08180000448bc5e8c1e7ffff8d752f4585f674288bc72bc6443bf00f8793010000498b5708488d05b11700008bce4803c8458bc6e894e7ffff4103f63b";
"f70f857001000033d28bcbe8500700008b158a17000083c2048d42fc83f8160f855201000083f8020f82490100000fb7056f17000033c983fa0666894424280f";
"94c183c1023c310f852a010000807c2429200f851f01000083fa060f84160100008d42fa83f8090f820a010000f20f100531170000440fb60531170000f20f11";
"442428448844243083fa0f0f84e60000008d42f183f8010f82da000000440fb60d0a17000083fa10b80300000044888c24a80000000f44c8488b442428483b05";
"cc1600000f85ad000000443a05c71600000f85a00000004180f9730f859600000083f9020f858d0000008d42f083f8060f82810000008b05b4160000488d4c24";
"204d85e4490f45cc89010fb705a31600006689410483fa16745d8d42ea83f8047255448b058d16000044898424b000000083fa1a7541488b055b060000410fb6";
"c880e10148bfd402000080f7ffff880841f6c0047408418bc0c1e808880741f6c0027413f0ff0d351a02008bb424a0000000e9e6fcfffff0ff0d221a0200488b";
"9c24b80000004883c460415f415e415d415c5f5e5dc3cccccccccccccccccccc8b05fa190200c3cccccccccccccccccc48895c240855488bec4883ec60488d4d";
"d0c645e400e82be9ffff83e801740f83f80175038845e4c745d8ffffffff33dbc745e0ffffffff48895de8895df0385de47411c605aa19020001bb2d0200c0e9";
"17010000f20f100574150000488d4dd0f20f110588150000c745ec0d000000c745f001000000c6057b15000076c705721500000000e507c745e80d000000e8bd";
"eaffff83f80f0f85ca0000008b4df083f9030f85be000000448b45ec418bc08b55e82bc283f8020f82a90000004c8d1d2c150000420fb7041a448d510183c202";
"668945c08955e8413bd07506418bca894df0807dc031757e807dc120757883f9037573418bc02bc283f8097269f2420f10041a460fb64c1a0883c209413bd0f2";
"0f1145c0488b45c0410f44ca8955e8483b05ba140000894df0753b443a0db6140000753283f9037532418bc02bc2413bc272288bc24103d2413bd08955e8410f";
"44ca42813c180000e507894df0730cbb13a000c0eb05bb360200c0488d4dd0e828e8ffff8bc3488b5c24704883c4605dc3cccccccccccccccccccccccccccccc";
"48895c2408488974241048897c24184c896424205541564157488dac24b0feffff4881ec5002000033f64c8d25381400008bfe4c8d3d26140000448d76046690";
"488d4c24204088742434e866e7ffff83e801741183f801750488442434c7442428ffffffffc7442430ffffffff8bde4889742438897424400f1f840000000000";
"8bce0f1f400066660f1f8400000000004863c1884c0450ffc181f90002000072ef837c2428ff0f8410020000f20f10058c130000488d442450f20f11059f1300";
"00498bccc744243c09020000498bd6c744244001000000c6058a130000746690488d89800000000f10000f104810488d80800000000f1141800f1040a00f1149";
"900f1048b00f1141a00f1040c00f1149b00f1048d00f1141c00f1040e00f1149d00f1048f00f1141e00f1149f04883ea0175ad488d4c2420c744243809020000";
"e87be8ffff3d0b0200000f856c010000448b4424404183f8030f855d010000448b4c243c418bc18b5424382bc283f80b0f8246010000f2420f10043a420fb744";
"3a08460fb6543a0a83c20b413bd1f20f114424506689442458450f44c6448854245a807c2450314489442440895424380f8506010000488b442452483b058e12";
"00000f85f4000000443a15891200000f85e70000004183f8030f85dd000000418bc12bc23d000200000f82cd0000008bc2488d4c24504903c74d8bc60f1f4000";
"0f1000488d89800000000f1048100f1141800f1040200f1149900f1048300f1141a00f1040400f1149b00f1048500f1141c00f1040600f1149d00f1048704883";
"e8800f1141e00f1149f04983e80175b081c20002000089542438413bd1755d488d4c24204489742440e814e7ffff84c0744ac7442430ffffffff8bd689742440";
"4863ca0fb6c2345538440c50752effc281fa000200007ce8ffc383fb320f8cddfdffff488d4c2420e85fe5ffffffc783ff020f8c88fdffffb001eb0c488d4c24";
"20e846e5ffff32c04c8d9c2450020000498b5b20498b7328498b7b304d8b6338498be3415f415e5dc3cccccccccccccc48895c24084889742410574883ec2033";
"c0c6055c150200004889055915020033db48890558150200488bf189055715020066890554150200891d32150200e83dfbffff8bf885c0791b3d2d0200c07525";
"381d1e1502007473488bcee870e7ffff8bf8eb11e8a7fcffff84c08bfbb9360200c00f44f9381df9140200744c488d357cffffff4881e600f0ffff0f1f440000";
"4863c3488bce482bc8ff15c10000004885c0752081c30010000081fb000010007cde8bc7488b5c2430488b7424384883c4205fc366834816018bc7488b5c2430";
"488b7424384883c4205fc3cccccccccc4883ec38803d8914020000488b4424604889442420740ae834efffff4883c438c3e88aeaffff4883c438c3cccccccccc";
"803d5d140200000f85e3f6ffffe9eef2ffffcccccccccccccccccccccccccccc4891ba5956000048efc300000000000000000000000000000000000000000000";
"70700200000000000000000000000000a070020000000000b470020000000000887002000000000000000000000000000000000048e65760000000000d000000";
"2c0100004c3000004c2400000000000000100000500300002e74657874000000501300009a1c00002e74657874246d6e0000000000300000300000002e696461";
"7461243500000000303000001c0000002e726461746100004c3000002c0100002e7264617461247a7a7a64626700000078310000480100002e78646174610000";
"00400000200000002e64617461000000204000001e0402002e6273730000000000500200b40000002e7064617461000000600200600100002e65646174610000";
"00700200280000002e696461746124320000000028700200180000002e696461746124330000000040700200300000002e696461746124340000000070700200";
"6a0000002e696461746124360000000000800200600000002e727372632430310000000060800200980300002e72737263243032000000000104010004620000";
"010f06000f6407000f3406000f320b7001280d0028c451002874500028644f0028344e0028014a0019f017e015500000010d04000d340e000db20650018c0d00";
"8ce41c0084d41b001c341d001c01140010f00ec00c700b600a500000011b0a001b3419001bd214f012e010d00ec00c700b600a50010702000701470021310a00";
"31e4460029744b001f644a00105449000834480080160000ac170000f431000021000a0000e4460000744b0000644a00005449000034480080160000ac170000";
"f43100002100000080160000ac170000f431000001200b0020341b002001120019f017e015d013c0117010600f50000001180a001834170018b214f012e010d0";
"0ec00c700b600a500106020006320230210a04000a74070005640600801500009a15000088320000210004000074070000640600801500009a15000088320000";
"00000000000000000000000000000000000000000000000000000000000000000000000000000000000000000000000000000000000000000000000000000000";
"00000000000000000000000000000000000000000000000000000000000000000000000000000000000000000000000000000000000000000000000000000000";
"00000000000000000000000000000000000000000000000000000000000000000000000000000000000000000000000000000000000000000000000000000000";
"00000000000000000000000000000000000000000000000000000000000000000000000000000000000000000000000000000000000000000000000000000000";
"00000000000000000000000000000000000000000000000000000000000000000000000000000000000000000000000000000000000000000000000000000000";
"7e6b64564d76412000000000000000002b2b6b64564d764120000000000000000000000000000000000000000000000000000000000000000000000000000000";
"00000000000000000000000000000000000000000000000000000000000000000000000000000000000000000000000000000000000000000000000000000000";
"00000000000000000000000000000000000000000000000000000000000000000000000000000000000000000000000000000000000000000000000000000000";
"00000000000000000000000000000000000000000000000000000000000000000000000000000000000000000000000000000000000000000000000000000000";
"00000000000000000000000000000000000000000000000000000000000000000000000000000000000000000000000000000000000000000000000000000000";
"00000000000000000000000000000000000000000000000000000000000000000000000000000000000000000000000000000000000000000000000000000000";
"00000000000000000000000000000000000000000000000000000000000000000000000000000000000000000000000000000000000000000000000000000000";
"00000000000000000000000000000000000000000000000000000000000000000000000000000000000000000000000000000000000000000000000000000000";
"801500009a150000883200009a1500005b160000903200005b1600007f160000a832000080160000ac170000f4310000ac170000101a0000fc310000101a0000";
"171a000020320000171a0000241a000044320000401a0000d91e0000bc310000e01e0000b922000054320000c0220000ac260000dc310000b0260000162a0000";
"70320000302a0000b12b0000b0310000c02b0000a92e000090310000b02e00008b2f000080310000902f0000bb2f000078310000000000000000000000000000";
"00000000000000000000000000000000000000000000000000000000000000000000000000000000000000000000000000000000000000000000000000000000";
"00000000000000000000000000000000000000000000000000000000000000000000000000000000000000000000000000000000000000000000000000000000";
"00000000000000000000000000000000000000000000000000000000000000000000000000000000000000000000000000000000000000000000000000000000";
"00000000000000000000000000000000000000000000000000000000000000000000000000000000000000000000000000000000000000000000000000000000";
"00000000000000000000000000000000000000000000000000000000000000000000000000000000000000000000000000000000000000000000000000000000";
"00000000ffffffff00000000a0600200010000000c0000000c000000286002005860020088600200301a000060130000202a00005013000050130000b02e0000";
"50130000902f00005013000050130000c02f000060130000d8600200e7600200f66002000c610200ac600200b960020022610200326102003c61020043610200";
"50610200c16002000300040005000600000001000700080009000a000b0002006b6462617a69732e646c6c004b64496e697469616c697a65004b64506f776572";
"004b64564d47657441637469766543616c6c436f756e74004b6444305472616e736974696f6e004b6444335472616e736974696f6e004b644465627567676572";
"496e697469616c697a6530004b644465627567676572496e697469616c697a6531004b64526563656976655061636b6574004b64526573746f7265004b645361";
"7665004b6453656e645061636b6574004b64536574486962657252616e6765000000000000000000000000000000000000000000000000000000000000000000";
"00000000000000000000000000000000000000000000000000000000000000000000000000000000000000000000000000000000000000000000000000000000";
"00000000000000000000000000000000000000000000000000000000000000000000000000000000000000000000000000000000000000000000000000000000";
"4070020000000000000000008070020000300000507002000000000000000000cc70020010300000000000000000000000000000000000000000000000000000";
"70700200000000000000000000000000a070020000000000b47002000000000088700200000000000000000000000000160048616c496e697453797374656d00";
"48414c2e646c6c00c0024d6d476574506879736963616c416464726573730000390452746c496d6167654e744865616465720000f9014b644465627567676572";
"4e6f7450726573656e7400006e746f736b726e6c2e65786500000000000000000000000000000000000000000000000000000000000000000000000000000000";
"00000000000000000000000000000000000000000000000000000000000000000000000000000000000000000000000000000000000000000000000000000000";
"00000000000000000000000000000000000000000000000000000000000000000000000000000000000000000000000000000000000000000000000000000000";
"00000000000000000000000000000000000000000000000000000000000000000000000000000000000000000000000000000000000000000000000000000000";
"00000000000000000000000000000000000000000000000000000000000000000000000000000000000000000000000000000000000000000000000000000000";
"00000000000000000000000000000100100000001800008000000000000000000000000000000100010000003000008000000000000000000000000000000100";
"1904000048000000608002009803000000000000000000000000000000000000980334000000560053005f00560045005200530049004f004e005f0049004e00";
"46004f0000000000bd04effe000001000000e507000000000000e5070000000017000000000000000000040002000000000000000000000000000000f6020000";
"010053007400720069006e006700460069006c00650049006e0066006f000000d2020000010030003000300039003000340062003000000070002c0001004300";
"6f006d006d0065006e00740073000000680074007400700073003a002f002f006700690074006800750062002e0063006f006d002f0034006400360031003700";
"3200360062002f005600690072007400750061006c004b0044002d0052006500640075007800000040001000010043006f006d00700061006e0079004e006100";
"6d006500000000005600690072007400750061006c004b0044002d0052006500640075007800000086002f000100460069006c00650044006500730063007200";
"69007000740069006f006e00000000004b00650072006e0065006c00200044006500620075006700670065007200200045007800740065006e00730069006f00";
"6e00200044004c004c00200066006f007200200056004d00200044006500620075006700670069006e006700000000002e0007000100460069006c0065005600";
"65007200730069006f006e000000000032003000320031002e003000000000002a000500010049006e007400650072006e0061006c004e0061006d0065000000";
"6b00640076006d00000000002e00050001004c006500670061006c0043006f00700079007200690067006800740000004c00470050004c000000000048001000";
"01004c006500670061006c00540072006100640065006d00610072006b007300000000005600690072007400750061006c004b0044002d005200650064007500";
"780000003a00090001004f0072006900670069006e0061006c00460069006c0065006e0061006d00650000006b00640076006d002e0064006c006c0000000000";
"400010000100500072006f0064007500630074004e0061006d006500000000005600690072007400750061006c004b0044002d00520065006400750078000000";
"320007000100500072006f006400750063007400560065007200730069006f006e00000032003000320031002e00300000000000440000000100560061007200";
"460069006c00650049006e0066006f00000000002400040000005400720061006e0073006c006100740069006f006e00000000000900b0040000000000000000";
"30150000000202003082151d06092a864886f70d010702a082150e3082150a020101310f300d06096086480165030402010500305c060a2b0601040182370201";
"04a04e304c3017060a2b06010401823702010f3009030100a004a20280003031300d060960864801650304020105000420e6a9221b1ead47cd782e693a0d19d4";
"c6ed470115a0ab0dd3d3fb3f3c58bc8c1da0820f82308204fe308203e6a00302010202100d424ae0be3a88ff604021ce1400f0dd300d06092a864886f70d0101";
"0b05003072310b300906035504061302555331153013060355040a130c446967694365727420496e6331193017060355040b13107777772e6469676963657274";
"2e636f6d3131302f060355040313284469676943657274205348413220417373757265642049442054696d657374616d70696e67204341301e170d3231303130";
"313030303030305a170d3331303130363030303030305a3048310b300906035504061302555331173015060355040a130e44696769436572742c20496e632e31";
"20301e0603550403131744696769436572742054696d657374616d70203230323130820122300d06092a864886f70d01010105000382010f003082010a028201";
"0100c2e6618467c58af50d08a445ca636b51d73a1142bd0a75754d94b40c50b52610fe1dc86f916b0c96e71a5c48ef44e5bf9b61cd1591625ab8ff670b9c63fd";
"366a81fa29f8dd2b7085de0218f3786dbc7df9c76d093dbe6a7687e98abdf8845d1e76c9e4c676763a53d1d1d35a368fc6a3e12f1b3ab761d673ec4e6d338a7c";
"5d452d4bb150e6413a375686dc93238df75025e864e6ddd38f2f57b58720eb0e8e2cd523daf44d7846e3038331294a5c0c318a4a8c88c5f7305af914af155f6c";
"434909fd262353f68d63e81aab5bb11d30c29b6982b4dbfc5654bc1fa187abbe7a5b0a202f4b09c995a78db2fad6638b4ea5721cee9f7a0173f819d6fe0d4984";
"bd010203010001a38201b8308201b4300e0603551d0f0101ff040403020780300c0603551d130101ff0402300030160603551d250101ff040c300a06082b0601";
"050507030830410603551d20043a3038303606096086480186fd6c07013029302706082b06010505070201161b687474703a2f2f7777772e6469676963657274";
"2e636f6d2f435053301f0603551d23041830168014f4b6e1201dfe29aed2e461a5b2a225b2c817356e301d0603551d0e041604143644868ea4bab066bebc282d";
"1d4436dde36a7abc30710603551d1f046a30683032a030a02e862c687474703a2f2f63726c332e64696769636572742e636f6d2f736861322d61737375726564";
"2d74732e63726c3032a030a02e862c687474703a2f2f63726c342e64696769636572742e636f6d2f736861322d617373757265642d74732e63726c3081850608";
"2b0601050507010104793077302406082b060105050730018618687474703a2f2f6f6373702e64696769636572742e636f6d304f06082b060105050730028643";
"687474703a2f2f636163657274732e64696769636572742e636f6d2f44696769436572745348413241737375726564494454696d657374616d70696e6743412e";
"637274300d06092a864886f70d01010b05000382010100481cdcb5e99a23bce71ae7200e8e6746fd427251740a2347a3ab92d225c47059be14a0e52781a54d14";
"15190779f0d104c386d93bbdfe4402664ded69a40ff6b870cf62e8f5514a7879367a27b7f3e7529f93a7ed439e7be7b4dd412289fb87a246034efcf4feb76477";
"635f2352698382fa1a53ed90cc8da117730df4f36539704bf39cd67a7bda0cbc3d32d01bcbf561fc75080076bc810ef8c0e15ccfc41172e71b6449d8229a7515";
"42f52d323881daf460a2bab452fb5ce06124254fb2dfc929a8734351dabd63d61f5b9bf72e1b4f131df74a0d717e97b7f43f84ebc1e3a349a1facea7bf56cfba";
"597661895f7ea7b48e6778f93698e1cb28da5b87a68a2f3082053130820419a00302010202100aa125d6d6321b7e41e405da3697c215300d06092a864886f70d";
"01010b05003065310b300906035504061302555331153013060355040a130c446967694365727420496e6331193017060355040b13107777772e646967696365";
"72742e636f6d312430220603550403131b4469676943657274204173737572656420494420526f6f74204341301e170d3136303130373132303030305a170d33";
"31303130373132303030305a3072310b300906035504061302555331153013060355040a130c446967694365727420496e6331193017060355040b1310777777";
"2e64696769636572742e636f6d3131302f060355040313284469676943657274205348413220417373757265642049442054696d657374616d70696e67204341";
"30820122300d06092a864886f70d01010105000382010f003082010a0282010100bdd032ee4bcd8f7fdda9ba8299c539542857b6234ac40e07453351107dd0f9";
"7d4d687ee7b6a0f48db388e497bf63219098bf13bc57d3c3e17e08d66a140038f72e1e3beecca6f63259fe5f653fe09bebe34647061a557e0b277ec0a2f5a0e0";
"de223f0eff7e95fbf3a3ba223e18ac11e4f099036d3b857c09d3ee5dc89a0b54e3a809716be0cf22100f75cf71724e0aaddf403a5cb751e1a17914c64d242330";
"5dbcec3c606aac2f07ccfdf0ea47d988505efd666e56612729898451e682e74650fd942a2ca7e4753eba980f847f9f3114d6add5f264cb7b1e05d084197217f1";
"1706ef3dcdd64def0642fda2532a4f851dc41d3cafcfdaac10f5ddacace956ff930203010001a38201ce308201ca301d0603551d0e04160414f4b6e1201dfe29";
"aed2e461a5b2a225b2c817356e301f0603551d2304183016801445eba2aff492cb82312d518ba7a7219df36dc80f30120603551d130101ff040830060101ff02";
"0100300e0603551d0f0101ff04040302018630130603551d25040c300a06082b06010505070308307906082b06010505070101046d306b302406082b06010505";
"0730018618687474703a2f2f6f6373702e64696769636572742e636f6d304306082b060105050730028637687474703a2f2f636163657274732e646967696365";
"72742e636f6d2f4469676943657274417373757265644944526f6f7443412e6372743081810603551d1f047a3078303aa038a0368634687474703a2f2f63726c";
"342e64696769636572742e636f6d2f4469676943657274417373757265644944526f6f7443412e63726c303aa038a0368634687474703a2f2f63726c332e6469";
"6769636572742e636f6d2f4469676943657274417373757265644944526f6f7443412e63726c30500603551d20044930473038060a6086480186fd6c00020430";
"2a302806082b06010505070201161c68747470733a2f2f7777772e64696769636572742e636f6d2f435053300b06096086480186fd6c0701300d06092a864886";
"f70d01010b05000382010100719512e951875669cdefddda7caa637ab378cf06374084ef4b84bfcacf0302fdc5a7c30e20422caf77f32b1f0c215a2ab705341d";
"6aae99f827a266bf09aa60df76a43a930ff8b2d1d87c1962e85e82251ec4ba1c7b2c21e2d65b2c1435430468b2db7502e072c798d63c64e51f4810185f893861";
"4d62462487638c91522caf2989e5781fd60b14a580d7124770b375d59385937eb69267fb536189a8f56b96c0f458690d7cc801b1b92875b7996385228c61ca79";
"947e59fc8c0fe36fb50126b66ca5ee875121e458609bba0c2d2b6da2c47ebbc4252b4702087c49ae13b6e17c424228c61856cf4134b6665db6747bf55633222f";
"2236b24ba24a95d8f5a68e52308205473082032fa00302010202108db7f73802d1d9bd4673fa61757f2977300d06092a864886f70d01010b0500301d311b3019";
"060355040313125669727475616c4b442d5265647578204341301e170d3230313130373135323030385a170d3339313233313233353935395a301e311c301a06";
"0355040313135669727475616c4b442d52656475782053504330820222300d06092a864886f70d01010105000382020f003082020a0282020100b2b6581e4ae4";
"2068f39bfff9115b5f397de47c1667405998733efbc87c8477d002be34e72e61555bfd3ad7b01f2f007d4c667930996a71d4448f85529701ae5b3f0af78331fc";
"77b6878b0b63485f6cfa3eaeb5edf6178d279fed44770943d72e7c7c475a9760366a4f21ea3cb193458400671155317a7d11610eb18f8582ed6c5b42fba82d5b";
"20ff9c1bcae1745a04d9c248bc7abf9b5dcd6269472514c6a0c4f3247283a224b760a237c63067c3c61288e08729639f5fe09d3f9331dd79a3f13bb5b92e71b1";
"c7474254534261c9ae82893db030d44b2395baec9a3ae9016aad6900b310398763febf81eb308e745c527c272ece9dcd1318370b0c4bf759ce3e78d364f58b3e";
"555aa6664c1903e9e47d7f30e2dd1e85c7e02bfddacde9d3c7640aa7cc0a23b25b9274de1a540d954acbf00790f18eaf9b2983b041ac6413f46f12361dbdb1f5";
"4fa5c0df82b9cd05f72f6c4ed2661871d0d5cab096db016a861177c5e771d50197774d3b092b0d6281a3458f171f467f7e06504ee706934b9a69e1154f266636";
"5166762c8dde027783f19b21acda6b34915f07b902aa4806b07f05ecc4ae50c49165f86d5b4e9232cc9fdba439a7c66051f8d24b673ac5171d604b25e7d23ed8";
"3c563656cbf5012cf2e0f54415a817f251b5b62412cb7b56f7baa1fba78ff2424c40805713bd0504aa2d85365e645aee93a007e2c4c46929988d0203010001a3";
"8181307f300c0603551d130101ff04023000301f0603551d250418301606082b06010505070303060a2b0601040182370a030d304e0603551d01044730458010";
"85d9308ea9b9785696712ff28bb3c42fa11f301d311b3019060355040313125669727475616c4b442d5265647578204341821035b1ded68ed4d7884f7e11ba40";
"77d0d2300d06092a864886f70d01010b0500038202010028d89a6c29a2bd8cfee0c56d1e0dd02b7fe4ad2a440091afd7f4796bc20194b4e372993b3f435fe59f";
"fac0be6681f7c6c82e0f8ba9a289324791d90c4dde99d7793df08420d7a47a461b86d1f3ddb05239bb957ffe85396532c3b92c3b61ab50413cdf885fa5d8ae78";
"e66e5af58eefefc3fc27e2867359cf34048bb614b26d8f26a1dc7dbfe5520fbe33db238828f7ab1c1d4058d7c96dce7aaf83a68ea3a39519731df17425fa750b";
"d003793773ab9be6855a66ff89577e011173a4f2db0ef24c6be6089afd1f78fe8d6895b7843b2ebbcaddce454ac80c1413f8b2c32845aa03b452f8d1d26780d2";
"93e6682d250076e822aaf9a1380fb88317d9025aa4ebad2fea8cca8b42b860e5f4148e7c56d6b99ba2306f76f16721801226902f87d4c250574d7facb3f84539";
"4dee0a6d9e0004f50210864ec9503205b73ea453e9b195e0e7f752b6e8ebf8df7e8255be08c8ceb9d71a3d566766e11ca0420e927c792341ba42d7edf4a87bf5";
"440f213d3bcfa47be73d2bb1185db839b15f6defd62e4e61e14503a983e3d4b759aeb841d449917d1ef271ca9a90daea4c42c062fb65e4686ce78038b1a64ec8";
"1b50b25f3feddc298fe554a4ddc871fe3ae6d7e87a6b2c169a2fa17d98f3c562a8c2c7b275002a6c74865624eb9edc24bd851fb265bfbfb0251e6ccb52a98943";
"b7c015cbbf4b0b6ee0247e92dadb9153a282163530f6b53182050e3082050a0201013031301d311b3019060355040313125669727475616c4b442d5265647578";
"20434102108db7f73802d1d9bd4673fa61757f2977300d06096086480165030402010500a07c3010060a2b06010401823702010c31023000301906092a864886";
"f70d010903310c060a2b060104018237020104301c060a2b06010401823702010b310e300c060a2b060104018237020115302f06092a864886f70d0109043122";
"042041107ea8e1e9d1bdeecfb0741382f2446bab08ec49da5b36c3a7350194aba146300d06092a864886f70d0101010500048202002fe3c6debc79b37e291268";
"d96ec02b558d1d7baf75ca7eb545894e76e273377468ce3f63a62bcd9a0330614b6645682c569fc0f749a309b4beaefeb9a5c2e32062f1d1fe1ce63323d1924f";
"096eda1de062ffc2ca0ed3b42becc572cdf06df539379a1b33b5d4d582fe084252b4817411a4d57e3d6cb1ad5025e5c359ae02670c641c84cf3a110a24ee7b3a";
"e8b0ed2cbddbb6f635f07bba21f75e4012e4dbc597ef36c2e853e563faa11469b8f3e1c63a46c536cbdb01b398b3372e87698c909dba3a49c89b5f767b1e6328";
"287f2d19792d422777ef86aab90297972bc8ae929edced70c9d29ab50ceeebde85defbbe18f5a4f25722a613e2e3e09c60ca61e896452b441cddff452a681d81";
"8d30ca563a6126ed662d5fbbd2efd128d9fe7a44e79cf354b21ffcc9b512afc2928162b20815ff77c3aa9bf2a8eb4c25cd7152f7e8e7051bd474e36089eaa4d7";
"e9fe95154bae5df9f302df3a96c09c3736feb8067ceeadce598df641119558ea7fcb9ce70589c87178446103ec75664a9777fd42937582f02be0363694ca0365";
"214d88e7f1733cb93d3db7f62e198624280a147072e2ef1d9ae97df2dedbe8174a99893b19c94447a95dde5ca04d41ac07aba92711293bc9f66cda30c737602c";
"aebc2ff3db7b38c26d1a990f1741120fb06cd72d30e93b34565fefed274156e08da3520b95cfb4b2e68eb68160a5a12785f1c89252a18202303082022c06092a";
"864886f70d0109063182021d308202190201013081863072310b300906035504061302555331153013060355040a130c446967694365727420496e6331193017";
"060355040b13107777772e64696769636572742e636f6d3131302f060355040313284469676943657274205348413220417373757265642049442054696d6573";
"74616d70696e6720434102100d424ae0be3a88ff604021ce1400f0dd300d06096086480165030402010500a069301806092a864886f70d010903310b06092a86";
"4886f70d010701301c06092a864886f70d010905310f170d3231303332323030333532325a302f06092a864886f70d0109043122042002aa8868cfb5fee8ccfd";
"231602c9c51bd5785ebbf448578d48263e3d0deb4dbf300d06092a864886f70d0101010500048201001454aaf428460beed1495149fb99367c235c63612b5dfb";
"6fe7c7285cc2c039dff6901929e87ab5c92a672fe3a555d5bd820dd665e8a845e41202df74311d446130c17d8d9dd9b2b67e5250e217ad167d7cef64b08419da";
"dc973f76e16e2aba0063f22b1e70e2f25f2675e1649e17ed413c2128c528865f17eb01b0546a487c8ddd5e56285672113052790eac087a7d85775b979aec62f3";
"26a8538297ca542e942e6a0467ad0c489ffb6165311d8ee01bb665d0eb2862ab8ba4e3b8532260c72d92b979ff6801d345193fe76b6bf81e91e5b44560cbc6c2";
"b029fe8efb7ded66d8ed7bdbbecd480f6639c68f888472c08321a3be37b89b2cb587d2776278a4028e00000000000000"].

(** tests/test_data/kdbazis.dll.crt, without its armour *)
Definition kdbazis_crt_hex : list string := [
"308205273082030fa003020102021035b1ded68ed4d7884f7e11ba4077d0d2300d06092a864886f70d01010b0500301d311b3019060355040313125669727475";
"616c4b442d5265647578204341301e170d3230313130373135323030365a170d3339313233313233353935395a301d311b301906035504031312566972747561";
"6c4b442d526564757820434130820222300d06092a864886f70d01010105000382020f003082020a0282020100b0e078730642fd5fc8bc9886b95e897d2f6225";
"4f6f3d9133d2f75226d2226e3027496a7cc2a8f8ff5a3895a8bd29b63ba7d063673eedcddba708983f9b74eff112bd3f1129d8cd1eb182a6cd1042fb9b0f49c3";
"a88857dd5705282e382bbc46189badc75d87ce6abdcc0389442300d78cc4f77c75435a8c9683020f1b76ed842974243ba5401dfe89d51bc1256da38cdbbc47a4";
"e3ca3f877644b8cde743e6dfda27cc084cf6ac5bce37c6a3cecd4927cf360ad8c5be21e5f399653cd93e10bcda49427145ec2841fb2f71d08c5f92575d05650d";
"653368d837388b7552078d63c5f985f7a1f2f254fb4e0281f9a6fc8631d3d236a96d238c80587f8ec8d420ea3fba0956f4421b58f87480bda4746b3ca8f04f44";
"edb4bd7ace9e36de87cb3cdd677a18bc534d74f0b8c68e63c038ef39026655847f4adfe248b1ecc3555cdbec36f3a34f415442213f3a185d14a460562690b0a2";
"1c42d295c8bf4eb2be61ca03ad2ef931ff5ee777bf8d6999333c821a81477560937d261942b3b280bb219e59cb0528a0cdc4649c26b2eb66f89c93c78bd74ffa";
"191e2525f50a488c7ed7e313ea1bc1e629dc58b85a28a714176bcf89bfb1ed309a6ed64cca6ab421d1dda6229c3f39596674d04002875b51d8afaa3eb0d25147";
"c40a7764f526718b434560fc8d3f3899c8bb91e416bb5ba6e14a54a9c6e4b791ddbed59b18cf19ebf67e4226ed0203010001a3633061300f0603551d130101ff";
"040530030101ff304e0603551d0104473045801085d9308ea9b9785696712ff28bb3c42fa11f301d311b3019060355040313125669727475616c4b442d526564";
"7578204341821035b1ded68ed4d7884f7e11ba4077d0d2300d06092a864886f70d01010b050003820201007502deffcb6081694f830848f3263272cc56ff2b6b";
"9dd0bedd98df292a09cab748eee30c0b1e324dbba0dcdd456ee1b0feba05f3b9b982c0ca302c830fb0b5ada1e4bea35a5bcf6501445e02a1cdde1c3e71599d0b";
"382b169469b5b61c8acd1e7264826b2cb4d993ef862bc131db839a08ffe4557fedb854bba79a79e0aa64d2dfb4776c6319b6b9a2d254e44c843536b5804a8006";
"cd94ca410885d5d52f0e40b7b8d41f809d9bfec615a2150826256770b5a75c0df41255fac2586e64d9ebef6742cdb0fffb6dee0961d8da1d4542f573c45a3eb4";
"89eccf48a38d700e03062d8d09b58f0ed0c1b5884154af01100cb03d1ca0cf552e06751be85d39e423b7f877089d48ee358368363db2c815a84004afc7981e45";
"2f989073757d3bb6eb72b424fe68540ffc3f05b23ff9287c397f4cf01285098f382b224b1a312d38f044627d292b1355264026dc9835bc54933ea7a8540b9ff3";
"6e404f1c9ac371ab9ceb87f94a620fa9e3f77cf418ca4bc8d43ad56b7d4998ff32213584bf31137ad036d411e4dc0ad13ea44761ea5d2cf92905fc225b99c752";
"59f5d7c69a8e9e01d67a4c1a58b6ad2a575b4b135632d041aa953b962c5bc79aa46de9ecb577f4d59527c0630900931179e4827ecf5ba9f7415e64373daf1c4e";
"0f0b8021a9437509757a0749375f6b51c2870231e37ed6d7a93ac47d52dff321fd8849bf0017e347dffdd9"].

(** The first 1024 octets of tests/test_data/sigcheck.exe, with the address of the certificate
    table set to 1024, followed by the certificate table of that file. *)
Definition sigcheck_hex : list string := [
  "4d5a90000300000004000000ffff0000b80000000000000040000000000000000000000000000000000000000000000000000000000000000000000008010000";
  "0e1fba0e00b409cd21b8014ccd21546869732070726f6772616d2063616e6e6f742062652072756e20696e20444f53206d6f64652e0d0d0a2400000000000000";
  "6603424c22622c1f22622c1f22622c1f2f30cd1f6f622c1f2f30f31f03622c1f2f30cc1fc6622c1f6433cd1f27622c1f2b1aaf1f20622c1f2b1abf1f3f622c1f";
  "22622d1ff8622c1f5f1bcc1f20622c1f5f1bcd1f2e622c1f2f30f71f23622c1f5f1bf21f23622c1f5269636822622c1f00000000000000000000000000000000";
  "0000000000000000504500004c010500a20b0e5a0000000000000000e00002010b010c0000340300006a020000000000aba40100001000000050030000004000";
  "00100000000200000500010000000000050001000000000000d005000004000046ee050003004081000010000010000000001000001000000000000010000000";
  "00000000000000004cd304002c01000000800500680a0000000000000000000000040000903e0000009005004c38000000000000000000000000000000000000";
  "00000000000000000000000000000000d8ad04004000000000000000000000000050030048030000000000000000000000000000000000000000000000000000";
  "2e74657874000000ac330300001000000034030000040000000000000000000000000000200000602e7264617461000038960100005003000098010000380300";
  "000000000000000000000000400000402e64617461000000a88a000000f004000058000000d00400000000000000000000000000400000c02e72737263000000";
  "680a000000800500000c000000280500000000000000000000000000400000402e72656c6f6300004c38000000900500003a0000003405000000000000000000";
  "00000000400000420000000000000000000000000000000000000000000000000000000000000000000000000000000000000000000000000000000000000000";
  "00000000000000000000000000000000000000000000000000000000000000000000000000000000000000000000000000000000000000000000000000000000";
  "00000000000000000000000000000000000000000000000000000000000000000000000000000000000000000000000000000000000000000000000000000000";
  "00000000000000000000000000000000000000000000000000000000000000000000000000000000000000000000000000000000000000000000000000000000";
  "00000000000000000000000000000000000000000000000000000000000000000000000000000000000000000000000000000000000000000000000000000000";
  "903e00000002020030823e8206092a864886f70d010702a0823e7330823e6f020101310b300906052b0e03021a0500304c060a2b060104018237020104a03e30";
  "3c3017060a2b06010401823702010f3009030100a004a20280003021300906052b0e03021a05000414dfbdc3905728da39d9f74d857ac1d228a0ac0218a08215";
  "82308204c2308203aaa003020102021333000000bf916cfb7c1a24e0220000000000bf300d06092a864886f70d01010505003077310b30090603550406130255";
  "53311330110603550408130a57617368696e67746f6e3110300e060355040713075265646d6f6e64311e301c060355040a13154d6963726f736f667420436f72";
  "706f726174696f6e3121301f060355040313184d6963726f736f66742054696d652d5374616d7020504341301e170d3136303930373137353834395a170d3138";
  "303930373137353834395a3081b2310b3009060355040613025553311330110603550408130a57617368696e67746f6e3110300e060355040713075265646d6f";
  "6e64311e301c060355040a13154d6963726f736f667420436f72706f726174696f6e310c300a060355040b1303414f4331273025060355040b131e6e43697068";
  "6572204453452045534e3a353743382d324431352d31433842312530230603550403131c4d6963726f736f66742054696d652d5374616d702053657276696365";
  "30820122300d06092a864886f70d01010105000382010f003082010a0282010100aded7f86c0f6a27557154d14f6ca8855fcbd5da53302bdfe031e5098d06526";
  "844cc3e189f6daafea9ea6531c377c22523f387bca8560bd92c28417e060047b5440f4a0eecebe657cbaf6a5fae2bea6ed7fcd622cde2b7d43b1270bb031e7aa";
  "c6e7c0968d6760b6bb986170ab07bdcf01692b2ffe72a5afaf9e836897db2f5a8b5b81d7248d7ae9c4b5d7dc840af553a41bec0247ad731374a97ca6d2e8bfae";
  "da154d2b4513304093961d1fa8fe041af6fe33fdfe37458d8f9cc46817b0f3b67e9d8ada10f4281388c75232db2a15630040d32de5b67ca18d619a09120cde85";
  "c138d5c94104eaddca26d817da13078ce56ab475d096e774191dd92ed00e31b4bb0203010001a382010930820105301d0603551d0e04160414e46c1a391ac793";
  "58b446366507c400b779179c11301f0603551d230418301680142334f8d95246700aed40fb76fbb32bb0c335b30f30540603551d1f044d304b3049a047a04586";
  "43687474703a2f2f63726c2e6d6963726f736f66742e636f6d2f706b692f63726c2f70726f64756374732f4d6963726f736f667454696d655374616d70504341";
  "2e63726c305806082b06010505070101044c304a304806082b06010505073002863c687474703a2f2f7777772e6d6963726f736f66742e636f6d2f706b692f63";
  "657274732f4d6963726f736f667454696d655374616d705043412e63727430130603551d25040c300a06082b06010505070308300d06092a864886f70d010105";
  "050003820101008edeb68dc67ed9806a9bb44a8adf36ec3454f4e2a2a22e87104453d17d1b2fe263513bb7ee4e2988f70adc9ff471f92d5ae3e3ad84aec926bf";
  "35b92696f021415e15a685b18a9c77719a6517d1caf481f8b7c003603c54239bb5c5bdabdb8684c46233598fb5b87f766f34ca6c08eec0dcd3310d73d7429c6b";
  "85d73c8e071596a55f180b7db8c2915dc828db295354c82d5d03ce4d2d74a030c7f3287993751c5701f568f36e91670951fe3b2fcdc9e24eca2344e2e4ffea2c";
  "87cf5f970aa7f69c8ad5fc35d7b0960ac227d594ebd227866b578d0c62e72ade5590b8a1117d78af2c55e574ac9742b4b879e4e844f49ebd18ac73418162e65c";
  "ce991d78de5f68308204ed308203d5a003020102021333000001797c2e574e52e1cad6000100000179300d06092a864886f70d01010505003079310b30090603";
  "55040613025553311330110603550408130a57617368696e67746f6e3110300e060355040713075265646d6f6e64311e301c060355040a13154d6963726f736f";
  "667420436f72706f726174696f6e312330210603550403131a4d6963726f736f667420436f6465205369676e696e6720504341301e170d313730383131323031";
  "3131355a170d3138303831313230313131355a308183310b3009060355040613025553311330110603550408130a57617368696e67746f6e3110300e06035504";
  "0713075265646d6f6e64311e301c060355040a13154d6963726f736f667420436f72706f726174696f6e310d300b060355040b13044d4f5052311e301c060355";
  "040313154d6963726f736f667420436f72706f726174696f6e30820122300d06092a864886f70d01010105000382010f003082010a0282010100a829fed410c8";
  "ff550a9e990003528fdcb0bff9abf851fe5c8c54c227ce4c2b96ebdb811ccb862b79ca757eb867832686bdd62f1c3ec758aa8f6f95fb5afca7c61bc1c3e84c17";
  "4e223db75b565c7fd75af52dbabba609bf067cee98fe40f930b86bfe406f74b3b8d63849c9d087072f31dfb6bc4ea3d09eb7627b5670754f67bf05cca3aebe00";
  "92c21b50a1613b100001b186d029f340f50fd9a30f57ab6309a8dca96ae74743a7be15c43d27a4e8565288cf5999a10084369bd039d22a0d2fe604e2bf139688";
  "83a95137184189e2f9859d8e651a3d0364ccc5de50705df20b85a98fb145e877ff839d09bb72e0e6560895b92b83128931fce758721dbdf983230203010001a3";
  "8201613082015d30130603551d25040c300a06082b06010505070303301d0603551d0e04160414f8e47e8d1c637c00aacc73004ad3f26d38aacd813052060355";
  "1d11044b3049a4473045310d300b060355040b13044d4f5052313430320603550405132b3232393830332b31616266396535662d636564302d343265362d6136";
  "35642d643933353039353966653065301f0603551d23041830168014cb11e8cad2b4165801c9372e331616b94c9a0a1f30560603551d1f044f304d304ba049a0";
  "478645687474703a2f2f63726c2e6d6963726f736f66742e636f6d2f706b692f63726c2f70726f64756374732f4d6963436f645369675043415f30382d33312d";
  "323031302e63726c305a06082b06010505070101044e304c304a06082b06010505073002863e687474703a2f2f7777772e6d6963726f736f66742e636f6d2f70";
  "6b692f63657274732f4d6963436f645369675043415f30382d33312d323031302e637274300d06092a864886f70d010105050003820101006f4b6b7e860dd80b";
  "26506b3a88c85aa9f6b2ea2a99a7e506344401ef73fbad2ffdedf8d5806a351c34c7130cb55e643c736b8cf26fd369bece3b0f9bf905723c1d46e1e89c3e36b1";
  "6f35a9a650547fe1d4573d3b1e7a5c8f013f773f5e732757faa730e7d472af8bdf7122fd8ae0fae02ddf5ff2de7764dfdab0060009ab4690a3f5fe81862c932b";
  "75c61128d7e58ae21c27ab978c9ac4e20719d3f26417b12bddf3087a78508506321c3950a3cd8b70de08d57b6f4c3f9ae8756de4cb13571c2959385fbe45aba6";
  "9acaf9299ecd38cfb9c805ba2cfbc425bf680ddf0f7b421a95c78fbd5a6b900b51fad7b7e78fb2b3332873035c7fa346829cadb636777687308205bc308203a4";
  "a003020102020a6133261a000000000031300d06092a864886f70d0101050500305f31133011060a0992268993f22c6401191603636f6d31193017060a099226";
  "8993f22c64011916096d6963726f736f6674312d302b060355040313244d6963726f736f667420526f6f7420436572746966696361746520417574686f726974";
  "79301e170d3130303833313232313933325a170d3230303833313232323933325a3079310b3009060355040613025553311330110603550408130a5761736869";
  "6e67746f6e3110300e060355040713075265646d6f6e64311e301c060355040a13154d6963726f736f667420436f72706f726174696f6e312330210603550403";
  "131a4d6963726f736f667420436f6465205369676e696e672050434130820122300d06092a864886f70d01010105000382010f003082010a0282010100b27259";
  "5c193064bf1d9a602020429976536c3e1bd66fcccbf1ea6bfe971610e0df3a74831ab72fa032ecffdec2424e23d57200db35570a89caae2049f4f068ac4d4b8d";
  "a5bd794b719b4707dafd25df9d7588cfaa73447fd781dbf3bdf236a4c95c45dcafad3de02868971aa7a5727356f11794e4fd359472a0d6765f1e774583853816";
  "d0735b05ba67528da5b2692fda190bfe927429e2762f54dd143059f8d28d62fdcbc95f463150b92713e44030cf7229102822c7374e3da0323d90cda13806855c";
  "4e5682282a0532b74bd74f63e7d22d62f1453de7ac0800f646a19ed15b8c2653e87aaa4af246cf373c389eb4775ca5179e8dcb118f563cc1ac095f03d3020301";
  "0001a382015e3082015a300f0603551d130101ff040530030101ff301d0603551d0e04160414cb11e8cad2b4165801c9372e331616b94c9a0a1f300b0603551d";
  "0f040403020186301206092b060104018237150104050203010001302306092b060104018237150204160414fdd1314ed3268a95e198603ba8316fa63cbcd82d";
  "301906092b0601040182371402040c1e0a00530075006200430041301f0603551d230418301680140eac826040562797e52513fc2ae10a539559e4a430500603";
  "551d1f044930473045a043a041863f687474703a2f2f63726c2e6d6963726f736f66742e636f6d2f706b692f63726c2f70726f64756374732f6d6963726f736f";
  "6674726f6f74636572742e63726c305406082b0601050507010104483046304406082b060105050730028638687474703a2f2f7777772e6d6963726f736f6674";
  "2e636f6d2f706b692f63657274732f4d6963726f736f6674526f6f74436572742e637274300d06092a864886f70d0101050500038202010059393e7f2646afeb";
  "6f40b132b56aeb0e2f6ea849f7eb5f75ed4c3b2dd743ad0bfecbe92d31a323cc7c509880215dac3d2f4cbaa2a8569ce370bbb8b4f879b54972f73eea417fcae1";
  "0c1769cba59c202dfa0b50c456cd2de34ad2bc70e7a80da203a556e0b88a4b57f295429cf1f3efeee3861f343cb8569af05323852aa4821c93e294071df2e24e";
  "f88ca1cae813a5914ec81bd28f72952a716d9b1af81cf053d667cc22ff5c1dcda28cbd27b279635644a251cdf9e9a35856dd9b0245442f5ff4daaed482326efc";
  "a49513e4eb69e7a9a22cbec82b100e658e99dbf5a2fa122609653894f17a1f4abbd1e156e8d07896185cc935165fdd931d498e2dbead34441cee10151a005ddd";
  "355b21ce98c709ee850e8c4f6d0e134e3d7c29489c72d1f36ccac1ec70a35792577d948da01b48035af7cfa3670a74a536ed2d2f17c8e6723712f46fb13c6782";
  "f952b28d3316651e0e8add10de64f46fce46d4d317e979c404b4d3fb2cdf1f8a9eac0afb132740ade4f9e1a97f46bb0760476560404eb042ec4eedb37679d80a";
  "34096d1c80311fe20e54dde5a1fbe54710ad6498ff50162e7cbf05217ae295412769c3938f95c98dd89b21ae0d5c9cf0a2ae8668830c6a2dbb766b001d96adf2";
  "167bf6168324b988cf6aa847312f9adce3713dd7007e6247d1ce88c9b818fa0e728dc1a33daf02406aff699b96e210a810b4375008d6c33d30820607308203ef";
  "a003020102020a6116683400000000001c300d06092a864886f70d0101050500305f31133011060a0992268993f22c6401191603636f6d31193017060a099226";
  "8993f22c64011916096d6963726f736f6674312d302b060355040313244d6963726f736f667420526f6f7420436572746966696361746520417574686f726974";
  "79301e170d3037303430333132353330395a170d3231303430333133303330395a3077310b3009060355040613025553311330110603550408130a5761736869";
  "6e67746f6e3110300e060355040713075265646d6f6e64311e301c060355040a13154d6963726f736f667420436f72706f726174696f6e3121301f0603550403";
  "13184d6963726f736f66742054696d652d5374616d702050434130820122300d06092a864886f70d01010105000382010f003082010a02820101009fa16cb1df";
  "db48922a7c6b2e19e1bde2e3c599512350adcedd184e240feed1a7d14cad74302011eb07d554951549941b4292ae985c3026da006be87bbdec89070ff70e0498";
  "f089cc1fcb3324879df2f4671c2cfc7be7881deae74ea3a1c12353ca8dfa45cf09d05eafd0b04204a2f9a66c9367d728dc4653b086d0e528462e27ac864f5552";
  "0ce4032cfb6a9090306e87f359309dfa7ed697b3e821977ef8d213f308b7536d52b445909f48004a476611272966a897e4d306814aa2f984a711471409829f84";
  "ed5578fe019a1d50088500103046edb7de2346bbc42d549faf1e78413177cc9bdf3b8393a16102b51d0db1fcf79bb201ce224b54fff905c3c2200b0203010001";
  "a38201ab308201a7300f0603551d130101ff040530030101ff301d0603551d0e041604142334f8d95246700aed40fb76fbb32bb0c335b30f300b0603551d0f04";
  "0403020186301006092b060104018237150104030201003081980603551d2304819030818d80140eac826040562797e52513fc2ae10a539559e4a4a163a46130";
  "5f31133011060a0992268993f22c6401191603636f6d31193017060a0992268993f22c64011916096d6963726f736f6674312d302b060355040313244d696372";
  "6f736f667420526f6f7420436572746966696361746520417574686f72697479821079ad16a14aa0a5ad4c7358f407132e6530500603551d1f044930473045a0";
  "43a041863f687474703a2f2f63726c2e6d6963726f736f66742e636f6d2f706b692f63726c2f70726f64756374732f6d6963726f736f6674726f6f7463657274";
  "2e63726c305406082b0601050507010104483046304406082b060105050730028638687474703a2f2f7777772e6d6963726f736f66742e636f6d2f706b692f63";
  "657274732f4d6963726f736f6674526f6f74436572742e63727430130603551d25040c300a06082b06010505070308300d06092a864886f70d01010505000382";
  "02010010978ac35c034436dde9b4ad77dbce79514d01b12e74715b6d0c13abcebe7b8fb82ed412a28c6d62b85702cb4e20135099dd7a40e257bbaf589a1ce11d";
  "0186acbb78f28bd0ec3b01eee2be8f0a05c88d48e2f05315dd4fab92e4e78d6ad580c1e694f2062f8503e9912a242270fbf6fce478992e0df707e270bc184e9d";
  "8e6b0a7295b8a1399c672dc5510eea625c3f16988b203fe2071a32f9cc314a76313d2b720bc8ea703dff850a13dfc20a618ef0d7b817eb4e8b7fc5352b5ea3bf";
  "ebbc7d0b427bd4537221ee30cabb78655c5b01170a140ed2da1498f53cb96658b32d2fe7f98586cc5156e89d70946cac394cd4f679bfaa187a6229efa29b2934";
  "06771a62c93d1e6d1f82f00bc72cbbcf43b3e5f9ec7db5e3a4a87435b84ec571231226760b3c528c715a464314bcb3b3b04d67c89f42ff807921809e153066e8";
  "42125e1ac89e2221d043e92be9bbf448cc2cd4d832804c262a48245f5aea56efa6de999dca3a6fbd8127740611ee7621bf9b82c12754b6b16a3d89a17661b46e";
  "a113a6bfaa47f0126ffd8a326cb2fedf51c88c23c966bd9d1d871264023d2daf598fb8e421e5b5b0ca63b4785405d4412e50ac94b0a578abb3a096751ad99287";
  "1375222f32a8086ea05b8c25bfa0ef84ca21d6eb1e4fc99aee49e0f701656f890b7dc869c8e66eeaa797ce3129ff0ec55b5cd84d1ba1d8fa2f9e3f2e55166bc9";
  "13a3fd31822887308228830201013081903079310b3009060355040613025553311330110603550408130a57617368696e67746f6e3110300e06035504071307";
  "5265646d6f6e64311e301c060355040a13154d6963726f736f667420436f72706f726174696f6e312330210603550403131a4d6963726f736f667420436f6465";
  "205369676e696e6720504341021333000001797c2e574e52e1cad6000100000179300906052b0e03021a0500a081a4301906092a864886f70d010903310c060a";
  "2b060104018237020104301c060a2b06010401823702010b310e300c060a2b060104018237020115302306092a864886f70d01090431160414eb69f90240b0b3";
  "fd1e6c666de99ed0621fc463ec3044060a2b06010401823702010c31363034a01280100073006900670063006800650063006ba11e801c687474703a2f2f7777";
  "772e737973696e7465726e616c732e636f6d20300d06092a864886f70d010101050004820100a63e195d514cb9680816e3e9fb996e475dea46bc5c44a197f3ec";
  "73ede7caac58c68ac4801d208b86216e2764a33ab6f80ee0a24a3c08d9ef3ee8bbef988c12bbed0fcf03fcda25daba2abd5d934193cff5543a9f4179cb128cac";
  "4e98277c2a6605810a8db97bb8085e4272a65ec2af299dc756f3fc07729d266e7970fc4d96026f969a207268efc4e658e6dd3215fb07c885d3ae5d4fe3c4c4a6";
  "8b23ec5691d457a4548de5566b903ba089330cf1255a420c00350f09c040efb99cf362636a6e370e49b2db86780454129e64aabc859cd644f02eec3b827713dc";
  "f7aebad3a08bb1c87e5334c94af0db918f0f56ce7e9c8f0b3bab051e6bc32e904dbf7350a547a18226243082022406092a864886f70d01090631820215308202";
  "1102010130818e3077310b3009060355040613025553311330110603550408130a57617368696e67746f6e3110300e060355040713075265646d6f6e64311e30";
  "1c060355040a13154d6963726f736f667420436f72706f726174696f6e3121301f060355040313184d6963726f736f66742054696d652d5374616d7020504341";
  "021333000000bf916cfb7c1a24e0220000000000bf300906052b0e03021a0500a05d301806092a864886f70d010903310b06092a864886f70d010701301c0609";
  "2a864886f70d010905310f170d3137313131363232303533365a302306092a864886f70d01090431160414ffa4736660a7459497af95680fd77ea4a5b228f930";
  "0d06092a864886f70d0101050500048201009cde1aea34d67b366f5d0a62639c4dd833d20502c0f5c6edfa909add548fa5a6fc8d53e802027cfca6832cae521d";
  "1ea471ec15a741fe71bc90ec6ebae367cacbc8b8cb2c898478d1223f2efc24629244dd419faf9c89a19536b995b65158ef0cf0eb0149848133d18be55cdfcc34";
  "5276ca1a416474c9ca0c7ca5a5c0f5dab07093afadffe64d4628c7a1b3cd970b07937c52f799067e9f1d2341bbd298abb20d4237549a441fda3f51bb59c03c6f";
  "6bcf6702d5952de4b6855b3130a338fa55e3fe9068f8e3c4f09176e5c7395788624d53599f51f0acc4e50c4322d5b4da1dea2519eb7ba1bdd184bf209c6d5df7";
  "9eb3923d5bf07045e4faae7a9c1e85a9f298308223f8060a2b060104018237020401318223e8308223e406092a864886f70d010702a08223d5308223d1020101";
  "310f300d06096086480165030402010500305c060a2b060104018237020104a04e304c3017060a2b06010401823702010f3009030100a004a20280003031300d";
  "060960864801650304020105000420a74a343be2234235f57f21b794fdbd379f246a388f7b17bf21cd1d26ece699efa0820d8330820601308203e9a003020102";
  "021333000000c4e989f87a8150e9ff0000000000c4300d06092a864886f70d01010b0500307e310b3009060355040613025553311330110603550408130a5761";
  "7368696e67746f6e3110300e060355040713075265646d6f6e64311e301c060355040a13154d6963726f736f667420436f72706f726174696f6e312830260603";
  "550403131f4d6963726f736f667420436f6465205369676e696e67205043412032303131301e170d3137303831313230323032345a170d313830383131323032";
  "3032345a3074310b3009060355040613025553311330110603550408130a57617368696e67746f6e3110300e060355040713075265646d6f6e64311e301c0603";
  "55040a13154d6963726f736f667420436f72706f726174696f6e311e301c060355040313154d6963726f736f667420436f72706f726174696f6e30820122300d";
  "06092a864886f70d01010105000382010f003082010a0282010100888ab824c3078f9a807915fc2660fc72882cfaf4a397889646b7a3cb5f892f3a332e1e9178";
  "fa7ca91f8201b57acb1abc03ca46ebc599f7fb041df2850aff226ea1f2673dc52718e5281ff504944163ece3ba158ced139a35de3870546f3becad45093049c1";
  "be8f30990ccb76c9f773951677d18bbb94c7088520ed1ea835f171c2e074004b8ad2dc91ebd678fe8dfaad60883dbdb91fae6297bfc584b190aed6af2bd354fb";
  "35dacd7192e61effec716bcb7f087674e0105148d4f100c8484ca30735e5590dfd7c9cc8e65ae385f5d69a0f1f8ea6e48417c1d6ca9f1d01c7fd48a713923397";
  "214832f8c224a200b2be53ca836e295b81ef386e80f3bbec130beb0203010001a38201803082017c301f0603551d2504183016060a2b0601040182374c080106";
  "082b06010505070303301d0603551d0e04160414cbd66284cf6039eaff67c25cd2c8bbabb7c3139830520603551d11044b3049a4473045310d300b060355040b";
  "13044d4f5052313430320603550405132b3233303031322b63383034623565612d343962342d343233382d383336322d643835316661323235346663301f0603";
  "551d23041830168014486e64e55005d382aa17373722b56da8ca75029530540603551d1f044d304b3049a047a0458643687474703a2f2f7777772e6d6963726f";
  "736f66742e636f6d2f706b696f70732f63726c2f4d6963436f64536967504341323031315f323031312d30372d30382e63726c306106082b0601050507010104";
  "553053305106082b060105050730028645687474703a2f2f7777772e6d6963726f736f66742e636f6d2f706b696f70732f63657274732f4d6963436f64536967";
  "504341323031315f323031312d30372d30382e637274300c0603551d130101ff04023000300d06092a864886f70d01010b0500038202010006161fdb57c250c8";
  "234fa25178d7edf8fdcdbdd5c0f1f91b56ed53c8694705d5c4cbece2fc995b955f113828c0054513e09a7988bc66abdbbbeb025523b73d2378416daef8f1005a";
  "94998a1ccc0995d09a1c4430a9a516c7ba475bf52b348b9f8f5837c34e1caf22ca10cdd88210a935f0ae22c88f24a6818bdf271ce4661d893e2eff57034dc16e";
  "83a032ebb4b32f50565d06b1158cc81d63b7730ce3d67a260f2a9645a732833e963e5749772389feb110c78ae5081551c52b5a315b396a96a8a4886b96286ff1";
  "c4aeeabd4517cc624e81b5541a478e98a56dc06e27c6f8271fc8ed20a90bb1f1ce0b9a94e26a9d6983a136d76d20fe85d5ffc3b8973609fe3d14c19814a9c086";
  "ccef82c1ab55244318b548857886d0f9d29d3f19d91489e78d9f682488683ba9c7804e26e708214c63fd9c93154d33b556604fd74ab9388eff2eddb15fa4436b";
  "c978cfb1bb6b8f836c8772aaeaa5fb9fdd1ad639fc64c96d3e08e57c83b1adbca3ba7bcf9656a47a58cb124762d221effc3cc4310bf72f3e64a5376f60503fb7";
  "44904fa00b8bbe7e58f6c7678761db9e98c4c88ccb6f47e1c02e94edb1f6b0306dec6a49a8e99676c8bd08c4fe3bf5ae733706b256cf19d4bbf594ca871cf280";
  "6a014fb61b8173b3d35b223f3a5818df88ee67c449a72fdc258b3d5ed0ec3444911dbc910c76823eefc4d82da104028e48f9efdd02cf03a23082077a30820562";
  "a003020102020a610e90d2000000000003300d06092a864886f70d01010b0500308188310b3009060355040613025553311330110603550408130a5761736869";
  "6e67746f6e3110300e060355040713075265646d6f6e64311e301c060355040a13154d6963726f736f667420436f72706f726174696f6e313230300603550403";
  "13294d6963726f736f667420526f6f7420436572746966696361746520417574686f726974792032303131301e170d3131303730383230353930395a170d3236";
  "303730383231303930395a307e310b3009060355040613025553311330110603550408130a57617368696e67746f6e3110300e060355040713075265646d6f6e";
  "64311e301c060355040a13154d6963726f736f667420436f72706f726174696f6e312830260603550403131f4d6963726f736f667420436f6465205369676e69";
  "6e6720504341203230313130820222300d06092a864886f70d01010105000382020f003082020a0282020100abf0fa72101c2eadd86eaa82104d34baf2b65821";
  "9f421b2a6be95a50aab806381a0449ba7fc30c1edd376bc612d80bf038c29906b0c839d501143142d3890d7964877e9460246caf9e499ce9685ed2df9b53b20a";
  "2cc3afd9a92bae7a09afd79659ca601a05e96676e8325226122fe7ab0850cfb344b75dd8c42e0375ab68f3cb6df33a5ca116f446bae03864ac6e643578a6a063";
  "0f2dd34093f8e3de070dd55c79a54929e70dbea01377be943deffbe32b5a101f4d5628a27a72e0123ab7495ed8eded439183d97bb27b861bd93eb18c5de8894f";
  "841af2a12f59e4903b2dae3358c5b73efe32d3b3033db1b2af92387ed29d802cf54e5691213525c3396e647f53ba9c0fad192384cbf4ba03868df75ff0d052bf";
  "8c9487bcc02174255f1828b6cc2728382598394a36cf7cb192ae1c23a7a966ec611f6ae128499d5f88e2255dd3214b3e52c4b5573f2403f0d17a5b2fd523e370";
  "5d0f514677b3f800e1bcac02825fdbc015b3bd1bd4554be739a10fe92349bc18b8447c45e4c1c3727ae072e724dfbf4699c5efc21c57db838dec4d4930a7ab8e";
  "dfec5b9faffcddb066e2c197817bedd6ed4be74929a71328a6a77d6780e68a62785fb22f84d7579c5cbf772828f1ed6dc3288f2c8f40374fc1e1854489c4094c";
  "c5d4a5432f7495f76ef87820582c135d60959a3e4f3384dab08817de9e4ef496b0bc46a06c98d2e0d6888c0b0203010001a38201ed308201e9301006092b0601";
  "0401823715010403020100301d0603551d0e04160414486e64e55005d382aa17373722b56da8ca750295301906092b0601040182371402040c1e0a0053007500";
  "6200430041300b0603551d0f040403020186300f0603551d130101ff040530030101ff301f0603551d23041830168014722d3a02319043b914054ee1eaa7c731";
  "d1238934305a0603551d1f04533051304fa04da04b8649687474703a2f2f63726c2e6d6963726f736f66742e636f6d2f706b692f63726c2f70726f6475637473";
  "2f4d6963526f6f436572417574323031315f323031315f30335f32322e63726c305e06082b0601050507010104523050304e06082b0601050507300286426874";
  "74703a2f2f7777772e6d6963726f736f66742e636f6d2f706b692f63657274732f4d6963526f6f436572417574323031315f323031315f30335f32322e637274";
  "30819f0603551d2004819730819430819106092b0601040182372e03308183303f06082b060105050702011633687474703a2f2f7777772e6d6963726f736f66";
  "742e636f6d2f706b696f70732f646f63732f7072696d6172796370732e68746d304006082b0601050507020230341e32201d004c006500670061006c005f0070";
  "006f006c006900630079005f00730074006100740065006d0065006e0074002e201d300d06092a864886f70d01010b0500038202010067f286a598e054791a2e";
  "d3d87467229b0b9611e163929942967dd2790c90c1655f2e2c3ef8c372d16d83febe3fe80aca3bbf47a9a3f369db63bf2235a5975d6584907d8b465055d80c92";
  "7cd21a4b1cf33c428b52d0b0fd6be33e072e299be63d1ba5d4b51d779439e2e964c9443d787a23f3137da69074838df4cb2602462ac28a10bba4a9050c9bed68";
  "fa682e95a02a3f2a6b5849631f09696e5a9896e483f4c08ff3462bdefc3bd0bd35ef6e25aee5af27edd0ddf30eaf992897984d0e3d0bf20889d61fc33218e2f0";
  "c52dce5b9eb449390ac60ac2c6adaee5b2d9db1588514558383271271a7fb1f427f8de2c3a206998b25989686e6fa7b774c3400506a6012a283e823f134d660b";
  "c0b34df5e18f7f1c6f157d45a776e5402a65a3c35d526286c31d63369786dfdaf3f8f216a19a27e1cda597d0ee5d6341e35b079c873e067706d106b1751f14be";
  "6161b5f0dcc61b04bedf41c70e28eede652fec97f6a15c96d800d6a146bd59f397a5094b481099801fd00029c5b19ba53f45771e35c6d2a2a29f7a7a22fa4895";
  "1fabfb472380f59ef8bf6bb74b97e2eb75781aecea379979184bffd6b3236875e6affafc8beb0b80ea693baffc30ed044c8edfdf756d63913dd19d564e4fbf80";
  "5722a1781132217aef410ab13ffba8cca45dc1a1889b5771564e4845c042c99b765b0a80486bfd799fc1bd6d6d6ac95273130d7a50cd318215d4308215d00201";
  "01308195307e310b3009060355040613025553311330110603550408130a57617368696e67746f6e3110300e060355040713075265646d6f6e64311e301c0603";
  "55040a13154d6963726f736f667420436f72706f726174696f6e312830260603550403131f4d6963726f736f667420436f6465205369676e696e672050434120";
  "32303131021333000000c4e989f87a8150e9ff0000000000c4300d06096086480165030402010500a081c33011060a2a864886f70d0109190431030201013019";
  "06092a864886f70d010903310c060a2b060104018237020104301c060a2b06010401823702010b310e300c060a2b060104018237020115302f06092a864886f7";
  "0d0109043122042033dcd6ebf56051987710ad00595e0f71ae406e155957034745f406185a5e9de13044060a2b06010401823702010c31363034a01280100073";
  "006900670063006800650063006ba11e801c687474703a2f2f7777772e737973696e7465726e616c732e636f6d20300d06092a864886f70d0101010500048201";
  "00826741ec73cb087ed6986c100e912af67018de426ecbdeaa17515606adb1b3f027ae4f7ea7c1f38dab1d1e8f020f5b5f3de7dae02b315d66dc2cb7bb2ad48d";
  "57e069195dc02110de9c86303ff2507e8e99e145fda2a824c6ebc1b1d3cada9a384f875983318d8cf119dd7ded3b9b8dbb8e6d61259e4392adbef7c6be2e8060";
  "1988150427e87fd2f0232f261c1589a4056f44d612750f727dcb6a2540c5e18f8ebd974a96ed9a0e08dc7becb0b37b533fe8fa316441662647c40c80aa2b0173";
  "af63a3a46aee6be4b40eb369110df8163878295a071d0adc97f5425cb847ef5b8ec43e37586d07c938ba08c2f8104cf758af76ed28d663f14fdde0963b9714fa";
  "57a182134930821345060a2b060104018237030301318213353082133106092a864886f70d010702a08213223082131e020103310f300d060960864801650304";
  "020105003082013c060b2a864886f70d0109100104a082012b0482012730820123020101060a2b0601040184590a03013031300d060960864801650304020105";
  "0004200874c8bca56328fc6f809589ffc2af8535fdd3c874efbe30db48e35e8b56ba80020659dadd3f2a78181332303137313131363232303534342e3333315a";
  "3007020101800201f4a081b8a481b53081b2310b3009060355040613025553311330110603550408130a57617368696e67746f6e3110300e0603550407130752";
  "65646d6f6e64311e301c060355040a13154d6963726f736f667420436f72706f726174696f6e310c300a060355040b1303414f4331273025060355040b131e6e";
  "436970686572204453452045534e3a313242342d324435462d38374434312530230603550403131c4d6963726f736f66742054696d652d5374616d7020536572";
  "76696365a0820ecd3082067130820459a003020102020a6109812a000000000002300d06092a864886f70d01010b0500308188310b3009060355040613025553";
  "311330110603550408130a57617368696e67746f6e3110300e060355040713075265646d6f6e64311e301c060355040a13154d6963726f736f667420436f7270";
  "6f726174696f6e31323030060355040313294d6963726f736f667420526f6f7420436572746966696361746520417574686f726974792032303130301e170d31";
  "30303730313231333635355a170d3235303730313231343635355a307c310b3009060355040613025553311330110603550408130a57617368696e67746f6e31";
  "10300e060355040713075265646d6f6e64311e301c060355040a13154d6963726f736f667420436f72706f726174696f6e312630240603550403131d4d696372";
  "6f736f66742054696d652d5374616d7020504341203230313030820122300d06092a864886f70d01010105000382010f003082010a0282010100a91d0dbc7711";
  "8a3a20ecfc1397f5fa7f69946b745410d5a50a008285fbed7c684b2c5fc5c3e561c276b73e662b5bf015532704311f411b1a951dce09138e7c613059b130440f";
  "f160888454430cd74db83808b342dd93acd67330572682a3450dd0eaf54781cdbf246032586046f258478632841e746167915f8154b1cf934c92c1c4a65dd161";
  "136e28c61af98680bbdf61fc46c1271d246712721a218aaf4b64895062b15dfd771f3df05775acbd8a424d4051d10f9c063e677ff566c00396447eefd04bfd6e";
  "e59acab1a8f27a2a0a31f0da4e0691b6880835e8781cb0e999cd3ce72f44baa7f4dc64bda401c120099378cdfcbcc0c9445d5e169c01054f224d0203010001a3";
  "8201e6308201e2301006092b06010401823715010403020100301d0603551d0e04160414d5633a5c8a3190f3437b7c461bc533685a856d55301906092b060104";
  "0182371402040c1e0a00530075006200430041300b0603551d0f040403020186300f0603551d130101ff040530030101ff301f0603551d23041830168014d5f6";
  "56cb8fe8a25c6268d13d94905bd7ce9a18c430560603551d1f044f304d304ba049a0478645687474703a2f2f63726c2e6d6963726f736f66742e636f6d2f706b";
  "692f63726c2f70726f64756374732f4d6963526f6f4365724175745f323031302d30362d32332e63726c305a06082b06010505070101044e304c304a06082b06";
  "010505073002863e687474703a2f2f7777772e6d6963726f736f66742e636f6d2f706b692f63657274732f4d6963526f6f4365724175745f323031302d30362d";
  "32332e6372743081a00603551d200101ff04819530819230818f06092b0601040182372e03308181303d06082b060105050702011631687474703a2f2f777777";
  "2e6d6963726f736f66742e636f6d2f504b492f646f63732f4350532f64656661756c742e68746d304006082b0601050507020230341e32201d004c0065006700";
  "61006c005f0050006f006c006900630079005f00530074006100740065006d0065006e0074002e201d300d06092a864886f70d01010b0500038202010007e688";
  "510de2c6e0983f8171033d9da3a1216fb3eba6ccf531becf05e2a9fefa576d1930b3c2c566c96adff5e7f078bdc7a89e25e3f9bced6b5457082b51824412fbb9";
  "538cccf460128a76cc4040419bdc5c17ff5cf95e17359824564b74ef4210c8afbf7fc67ff2377d5a3f1cf299794a915200af380f17f52f798165d9a9b56be4c7";
  "cef6ca7a006f4b304424223ccfed03a5968f5929bcb6fd04e1709f324a27fd55af2ffeb6e58e33bb625f9adb5740e9f1ce9966908cff6a627fddc54a0b9126e2";
  "39ec194a71639d7b216dc39ca3a23cfa7f7d966a9078a66dd2e19cf91dfc38d894f4c6a50a9686a4bd9e1aae044283b8b5809b223820b525e564ecf7f4bf7e63";
  "59250f7a2e395776a271aa068a0f8916ba61a711cb9ad80e479a80c5d0cda7d0ef7d83f0e13b7109df5d7498220861dab0501e6fbdf1e100dfe73107a4933af7";
  "654778e8f8a848abf7de727e616b6f77a981cba709ac39bbecc6cbd882b472cd1df4b885011e80fb1b892a5439b25bdac80d55997a87733b08e6982dea8de033";
  "2e1229f5c02f542721f7c8ac4eda28b8b1a9db96b2a742a2c9cf19414de086f92a9aa3116630d3bb74324bdf637bf5998a2f1bc721af59b5aedc443c975071d7";
  "a1d2c555e369de57c1d1de30c0fdcce64dfb0dbf5d4fe99d1e19382fbccf58052eef0da05035daef09271cd5b37e351e08bada36dbd35f8fde74884912308204";
  "d9308203c1a003020102021333000000a7645dc5280f013d440000000000a7300d06092a864886f70d01010b0500307c310b3009060355040613025553311330";
  "110603550408130a57617368696e67746f6e3110300e060355040713075265646d6f6e64311e301c060355040a13154d6963726f736f667420436f72706f7261";
  "74696f6e312630240603550403131d4d6963726f736f66742054696d652d5374616d70205043412032303130301e170d3136303930373137353635325a170d31";
  "38303930373137353635325a3081b2310b3009060355040613025553311330110603550408130a57617368696e67746f6e3110300e060355040713075265646d";
  "6f6e64311e301c060355040a13154d6963726f736f667420436f72706f726174696f6e310c300a060355040b1303414f4331273025060355040b131e6e436970";
  "686572204453452045534e3a313242342d324435462d38374434312530230603550403131c4d6963726f736f66742054696d652d5374616d7020536572766963";
  "6530820122300d06092a864886f70d01010105000382010f003082010a0282010100a6ea1a50c05f4fd253f9a1ec047c0dd72057312151d8c7ee030a2e78ce8b";
  "2e22236b9636101f0a517a85e75d14fe73b2d7d27c6355c10ab8c69434e8b889d9179c09b118a1913f43565556d95bc54fd6837ee4e810881b4c7a1b90a2d4b5";
  "02d3d1f8bf9bceff356ad52e8e4c93467ab37d4e52d01811d8cc97cc4c94e4728b50fcead2520910388311b8960331385c418d3a2987115813a30ead7daddefa";
  "e66ecad0b8a1736dbeb5a9a567496b077c7988b46636f231273814e2351fc1275d78c8e22a326b6781465305d67b43356a4430edbb21ed37497fb244099bda59";
  "c02b3e92f80ec0264b178aef08d354e78c0b8f8a8d52f6a079a84f660632b98b2af10203010001a382011b30820117301d0603551d0e041604147c0d4a0b7dfb";
  "4fff5e102c3d796f204d4250885d301f0603551d23041830168014d5633a5c8a3190f3437b7c461bc533685a856d5530560603551d1f044f304d304ba049a047";
  "8645687474703a2f2f63726c2e6d6963726f736f66742e636f6d2f706b692f63726c2f70726f64756374732f4d696354696d5374615043415f323031302d3037";
  "2d30312e63726c305a06082b06010505070101044e304c304a06082b06010505073002863e687474703a2f2f7777772e6d6963726f736f66742e636f6d2f706b";
  "692f63657274732f4d696354696d5374615043415f323031302d30372d30312e637274300c0603551d130101ff0402300030130603551d25040c300a06082b06";
  "010505070308300d06092a864886f70d01010b050003820101009ac6244be797b2520164870fe2429328567976f4f90a15674d7a0e89803c3f3342de8e72f25c";
  "a6f378b3b9b085d28f25eddb8abde12c7d56600412cf27f36378f84654544a16da6bea5cbbfb867a6c5e7f4d7362a0369db0deb3e9cf12628cfaf09c6c240c6b";
  "882e9197bedf4e328c5c6e278427799b9dcbdfe8ec110b00095c7a2f6a25f6d2f63a2a876d4776cc55af4eb6f1d57a1ab3f99c1d084828fd71ff5e079b2542b0";
  "a3f80bfd61d25fba74e861d5f3e2e044bf290de38af06d5d8c5ae2e50e0d8107d12b8ed2795099ad01a2cb3501babe0042832371b61d6087aa8c5bfe7bed7086";
  "0e0871b557852f9410236db41fbca346b7e5164baef0aeb6ba4ea18203773082025f0201013081e2a181b8a481b53081b2310b30090603550406130255533113";
  "30110603550408130a57617368696e67746f6e3110300e060355040713075265646d6f6e64311e301c060355040a13154d6963726f736f667420436f72706f72";
  "6174696f6e310c300a060355040b1303414f4331273025060355040b131e6e436970686572204453452045534e3a313242342d324435462d3837443431253023";
  "0603550403131c4d6963726f736f66742054696d652d5374616d702053657276696365a2250a0101300906052b0e03021a0500031500e4822e9d32366d740032";
  "0f1ec121b40deb0c77d9a081c13081bea481bb3081b8310b3009060355040613025553311330110603550408130a57617368696e67746f6e3110300e06035504";
  "0713075265646d6f6e64311e301c060355040a13154d6963726f736f667420436f72706f726174696f6e310c300a060355040b1303414f433127302506035504";
  "0b131e6e436970686572204e54532045534e3a323636352d344333462d43354445312b3029060355040313224d6963726f736f66742054696d6520536f757263";
  "65204d617374657220436c6f636b300d06092a864886f70d0101050500020500ddb87f0f3022180f32303137313131363231313830375a180f32303137313131";
  "373231313830375a3077303d060a2b0601040184590a0401312f302d300a020500ddb87f0f020100300a0201000202076a0201ff300702010002021a7f300a02";
  "0500ddb9d08f0201003036060a2b0601040184590a040231283026300c060a2b0601040184590a0301a00a3008020100020316e360a10a3008020100020307a1";
  "20300d06092a864886f70d010105050003820101005f175d3784cd2a70759f60e4cdacbcb4d2b76624a8ceb64ec9eecd1a58685f0cccd8feda5faeb7d7ad5211";
  "437298d4bf4b94831d9b2d24f42cc348fd94f43d3275cf01a307722b25ea771aa690a5ca7e71a0f252dc5fc7488d103c2bcf9e8d15ec0febfd2211a5cb93a73d";
  "3e93a177b3c0f83ef2e015d96b99fe6e99b46c66d25b96214f4c9c3e0883f5fc8fb0b664b8c2bbff74e6dc44542aad50742f6caa0dc5354b83718ad95811b726";
  "6de6415f79a91d3000fc0216e1dcb216625e7fe0f9ab781ce4796a838f8a59cadd643c30362255c8303ec1f80a8a2170eb76f6f2f4f149fe43aafa8c92e284e9";
  "d012a791aa8e61fdcd50a706d095be0a4c0c7c6331318202f5308202f1020101308193307c310b3009060355040613025553311330110603550408130a576173";
  "68696e67746f6e3110300e060355040713075265646d6f6e64311e301c060355040a13154d6963726f736f667420436f72706f726174696f6e31263024060355";
  "0403131d4d6963726f736f66742054696d652d5374616d70205043412032303130021333000000a7645dc5280f013d440000000000a7300d0609608648016503";
  "0402010500a0820132301a06092a864886f70d010903310d060b2a864886f70d0109100104302f06092a864886f70d01090431220420c4ccce9bebd97c62f90a";
  "9c5f26c56dfcebd889fc94562f9ec94ba1810072587e3081e2060b2a864886f70d010910020c3181d23081cf3081cc3081b10414e4822e9d32366d7400320f1e";
  "c121b40deb0c77d9308198308180a47e307c310b3009060355040613025553311330110603550408130a57617368696e67746f6e3110300e0603550407130752";
  "65646d6f6e64311e301c060355040a13154d6963726f736f667420436f72706f726174696f6e312630240603550403131d4d6963726f736f66742054696d652d";
  "5374616d70205043412032303130021333000000a7645dc5280f013d440000000000a730160414fad7b1192a4993b5f75d5d392caf953c697e9a5a300d06092a";
  "864886f70d01010b0500048201008045536739fd93d8cf06b11503220e4692821e8f6e199cfd2559124ab5f3ba72b2bda2e3b2b4cbf1755483ea7358f20fb306";
  "9e0a680d2fd59a9e888bf6bc6c587b9bdc81ada1cdc20b4d9a012ddff3d234905846d7dd26c6fe55c47437f65e642b98cbe95598353298afe0fa5ba9ab5c0568";
  "f93f7917a33879f1441d1a8a771bb1ae7cd2a332e9d01e05055aabc094b05917e9eb2a11923e9adf59002167e9ab57bd6bbc9be7783a0e295400ffdc858e0fdf";
  "ddc3e289ff130fd3e71a0654e957d7ce1ce139f32b7e17686a40af695dc810cf1f91c78e2b4ec9fb59dac03514497ced53a677e82aec198b955f65539ae6bc5f";
  "df1544016420cf4b5410bf6beb280000"
].

(** The first 1024 octets of tests/test_data/whois.exe, with the address of the certificate
    table set to 1024, followed by the certificate table of that file. *)
Definition whois_hex : list string := [
  "4d5a90000300000004000000ffff0000b80000000000000040000000000000000000000000000000000000000000000000000000000000000000000018010000";
  "0e1fba0e00b409cd21b8014ccd21546869732070726f6772616d2063616e6e6f742062652072756e20696e20444f53206d6f64652e0d0d0a2400000000000000";
  "7ba5c0e63fc4aeb53fc4aeb53fc4aeb58b585fb535c4aeb58b585db5b5c4aeb58b585cb526c4aeb56dacabb41bc4aeb56dacaab42ec4aeb56dacadb42bc4aeb5";
  "3fc4afb5b7c4aeb536bc3db530c4aeb5a5adabb43dc4aeb5a5adaab43dc4aeb5a5ad51b53ec4aeb53fc439b53ec4aeb5a5adacb43ec4aeb5526963683fc4aeb5";
  "000000000000000000000000000000000000000000000000504500004c01050065abf05d0000000000000000e00002010b010e1000b40400004a010000000000";
  "db3800000010000000d00400000040000010000000020000050001000000000005000100000000000030060000040000440e0700030040810000100000100000";
  "00001000001000000000000010000000000000000000000054c00500a000000000f0050048050000000000000000000000040000702300000000060018260000";
  "50af050054000000000000000000000000000000000000000000000000000000a8af050040000000000000000000000000d004003c0200000000000000000000";
  "000000000000000000000000000000002e74657874000000a8b304000010000000b4040000040000000000000000000000000000200000602e72646174610000";
  "6efc000000d0040000fe000000b80400000000000000000000000000400000402e64617461000000fc1d000000d00500000c000000b605000000000000000000";
  "00000000400000c02e727372630000004805000000f005000006000000c20500000000000000000000000000400000402e72656c6f6300001826000000000600";
  "0028000000c805000000000000000000000000004000004200000000000000000000000000000000000000000000000000000000000000000000000000000000";
  "00000000000000000000000000000000000000000000000000000000000000000000000000000000000000000000000000000000000000000000000000000000";
  "00000000000000000000000000000000000000000000000000000000000000000000000000000000000000000000000000000000000000000000000000000000";
  "00000000000000000000000000000000000000000000000000000000000000000000000000000000000000000000000000000000000000000000000000000000";
  "00000000000000000000000000000000000000000000000000000000000000000000000000000000000000000000000000000000000000000000000000000000";
  "70230000000202003082236406092a864886f70d010702a082235530822351020101310f300d06096086480165030402010500305c060a2b0601040182370201";
  "04a04e304c3017060a2b06010401823702010f3009030100a004a20280003031300d060960864801650304020105000420000111ef0c96ec458f0be466f95a93";
  "1becde968a33bf1ce06979357c3355f0f8a0820d81308205ff308203e7a003020102021333000001519e8d8f4071a30e41000000000151300d06092a864886f7";
  "0d01010b0500307e310b3009060355040613025553311330110603550408130a57617368696e67746f6e3110300e060355040713075265646d6f6e64311e301c";
  "060355040a13154d6963726f736f667420436f72706f726174696f6e312830260603550403131f4d6963726f736f667420436f6465205369676e696e67205043";
  "412032303131301e170d3139303530323231333734365a170d3230303530323231333734365a3074310b3009060355040613025553311330110603550408130a";
  "57617368696e67746f6e3110300e060355040713075265646d6f6e64311e301c060355040a13154d6963726f736f667420436f72706f726174696f6e311e301c";
  "060355040313154d6963726f736f667420436f72706f726174696f6e30820122300d06092a864886f70d01010105000382010f003082010a0282010100955ac6";
  "8669471d341ef155c36675f662541858146727f0a32ac60348bce656347f496102ee847866279456212cb5a1ecb7cd3bb1a8b6e41c07666de53c345328e3d3ef";
  "ef5320212f481bf12dab0387eeea5a9fe948aba34e730e5f3ba3acfb5d91d10dbc3331a7fb7cbb17698a0e7a2956ed2c12e7f2e39de0c73d7a33c6c0c38f905e";
  "ebfbf9f47d5b3449d82a54eb6c1029888540c7dec3a561e5fb8fa1796837793af90973ef381c4f86119b1cf1ee3315a4ffeebcaeac65c0714375a007f5a4c971";
  "e0c5a635f480332ead9088f897d98af2891e44b1806adf904fed4d790e566da52b36c086139240c1c613c9203260a3066ee46ca11ddaabb2ddce8e4491020301";
  "0001a382017e3082017a301f0603551d2504183016060a2b0601040182374c080106082b06010505070303301d0603551d0e0416041457821aae4ab9edeb1a82";
  "ee855016f6ef46628dcf30500603551d1104493047a445304331293027060355040b13204d6963726f736f6674204f7065726174696f6e732050756572746f20";
  "5269636f311630140603550405130d3233303031322b343534313335301f0603551d23041830168014486e64e55005d382aa17373722b56da8ca750295305406";
  "03551d1f044d304b3049a047a0458643687474703a2f2f7777772e6d6963726f736f66742e636f6d2f706b696f70732f63726c2f4d6963436f64536967504341";
  "323031315f323031312d30372d30382e63726c306106082b0601050507010104553053305106082b060105050730028645687474703a2f2f7777772e6d696372";
  "6f736f66742e636f6d2f706b696f70732f63657274732f4d6963436f64536967504341323031315f323031312d30372d30382e637274300c0603551d130101ff";
  "04023000300d06092a864886f70d01010b050003820201005a0f80ad2e009eaecaae882c948427a0c1d25d43ebfd1a8e221257fb7d8e6ee637305bdd9511256d";
  "2b12271ad1cbf382099752b1ef9fd80a90f85ff6698c010e65106de301f27d2960b66738f89fa9eefc4411f67d566cbd7c727e2cdb1ee6d65a851f356fc52656";
  "652d7c09985dc1a0bf04da9d3d2b785a830cffa2d70ab50d7e438f8368e6175a57aa26b254b271ecf5488b72b545d2578bfd0d55e5bb21a1bd8e4e566ad2acd2";
  "76b3032d6761cab50ec6767ea2367b51d4d8e159c2ba881b67d66cf6cc896e0ed9512f52560624a3046c5afe6357895ba930feb46e05ce13b071143075be80f3";
  "3a7636777eb3b55d0ae605b06808e35b9c0fca3155f70032317d617e4ddace2696d92a9d47b7fe1b55ae7c4a2830304989626aec762fb80ac3e6c3d64119ff9a";
  "332d19c9de38c3928993acf72da2463f29a675aae6f43549e638a1fedf150afe995624af0139062e53b80a607ed8cbd59228d94fee92a3ea2e35efedcd6bf7eb";
  "2278e7064291089fde613bc11feb3982e7b3a5f416b54e1b368fe3f10c36be94d0f70edf9611fbf119b0777d7df984e686fed37310db5a5cad79a8f844adb093";
  "7a58d684b3d893c4e4f36e36677d1a67faa1e3d9832ec88bd24b2eaf129d42d5edbf883f4517458f6af867518ccd80117ea6b19bef3c22281b46981d0bbdc19b";
  "0a10ada3aaf5a2f3fc5d79e79223d14de8ad70e2855033833082077a30820562a003020102020a610e90d2000000000003300d06092a864886f70d01010b0500";
  "308188310b3009060355040613025553311330110603550408130a57617368696e67746f6e3110300e060355040713075265646d6f6e64311e301c060355040a";
  "13154d6963726f736f667420436f72706f726174696f6e31323030060355040313294d6963726f736f667420526f6f7420436572746966696361746520417574";
  "686f726974792032303131301e170d3131303730383230353930395a170d3236303730383231303930395a307e310b3009060355040613025553311330110603";
  "550408130a57617368696e67746f6e3110300e060355040713075265646d6f6e64311e301c060355040a13154d6963726f736f667420436f72706f726174696f";
  "6e312830260603550403131f4d6963726f736f667420436f6465205369676e696e6720504341203230313130820222300d06092a864886f70d01010105000382";
  "020f003082020a0282020100abf0fa72101c2eadd86eaa82104d34baf2b658219f421b2a6be95a50aab806381a0449ba7fc30c1edd376bc612d80bf038c29906";
  "b0c839d501143142d3890d7964877e9460246caf9e499ce9685ed2df9b53b20a2cc3afd9a92bae7a09afd79659ca601a05e96676e8325226122fe7ab0850cfb3";
  "44b75dd8c42e0375ab68f3cb6df33a5ca116f446bae03864ac6e643578a6a0630f2dd34093f8e3de070dd55c79a54929e70dbea01377be943deffbe32b5a101f";
  "4d5628a27a72e0123ab7495ed8eded439183d97bb27b861bd93eb18c5de8894f841af2a12f59e4903b2dae3358c5b73efe32d3b3033db1b2af92387ed29d802c";
  "f54e5691213525c3396e647f53ba9c0fad192384cbf4ba03868df75ff0d052bf8c9487bcc02174255f1828b6cc2728382598394a36cf7cb192ae1c23a7a966ec";
  "611f6ae128499d5f88e2255dd3214b3e52c4b5573f2403f0d17a5b2fd523e3705d0f514677b3f800e1bcac02825fdbc015b3bd1bd4554be739a10fe92349bc18";
  "b8447c45e4c1c3727ae072e724dfbf4699c5efc21c57db838dec4d4930a7ab8edfec5b9faffcddb066e2c197817bedd6ed4be74929a71328a6a77d6780e68a62";
  "785fb22f84d7579c5cbf772828f1ed6dc3288f2c8f40374fc1e1854489c4094cc5d4a5432f7495f76ef87820582c135d60959a3e4f3384dab08817de9e4ef496";
  "b0bc46a06c98d2e0d6888c0b0203010001a38201ed308201e9301006092b06010401823715010403020100301d0603551d0e04160414486e64e55005d382aa17";
  "373722b56da8ca750295301906092b0601040182371402040c1e0a00530075006200430041300b0603551d0f040403020186300f0603551d130101ff04053003";
  "0101ff301f0603551d23041830168014722d3a02319043b914054ee1eaa7c731d1238934305a0603551d1f04533051304fa04da04b8649687474703a2f2f6372";
  "6c2e6d6963726f736f66742e636f6d2f706b692f63726c2f70726f64756374732f4d6963526f6f436572417574323031315f323031315f30335f32322e63726c";
  "305e06082b0601050507010104523050304e06082b060105050730028642687474703a2f2f7777772e6d6963726f736f66742e636f6d2f706b692f6365727473";
  "2f4d6963526f6f436572417574323031315f323031315f30335f32322e63727430819f0603551d2004819730819430819106092b0601040182372e0330818330";
  "3f06082b060105050702011633687474703a2f2f7777772e6d6963726f736f66742e636f6d2f706b696f70732f646f63732f7072696d6172796370732e68746d";
  "304006082b0601050507020230341e32201d004c006500670061006c005f0070006f006c006900630079005f00730074006100740065006d0065006e0074002e";
  "201d300d06092a864886f70d01010b0500038202010067f286a598e054791a2ed3d87467229b0b9611e163929942967dd2790c90c1655f2e2c3ef8c372d16d83";
  "febe3fe80aca3bbf47a9a3f369db63bf2235a5975d6584907d8b465055d80c927cd21a4b1cf33c428b52d0b0fd6be33e072e299be63d1ba5d4b51d779439e2e9";
  "64c9443d787a23f3137da69074838df4cb2602462ac28a10bba4a9050c9bed68fa682e95a02a3f2a6b5849631f09696e5a9896e483f4c08ff3462bdefc3bd0bd";
  "35ef6e25aee5af27edd0ddf30eaf992897984d0e3d0bf20889d61fc33218e2f0c52dce5b9eb449390ac60ac2c6adaee5b2d9db1588514558383271271a7fb1f4";
  "27f8de2c3a206998b25989686e6fa7b774c3400506a6012a283e823f134d660bc0b34df5e18f7f1c6f157d45a776e5402a65a3c35d526286c31d63369786dfda";
  "f3f8f216a19a27e1cda597d0ee5d6341e35b079c873e067706d106b1751f14be6161b5f0dcc61b04bedf41c70e28eede652fec97f6a15c96d800d6a146bd59f3";
  "97a5094b481099801fd00029c5b19ba53f45771e35c6d2a2a29f7a7a22fa48951fabfb472380f59ef8bf6bb74b97e2eb75781aecea379979184bffd6b3236875";
  "e6affafc8beb0b80ea693baffc30ed044c8edfdf756d63913dd19d564e4fbf805722a1781132217aef410ab13ffba8cca45dc1a1889b5771564e4845c042c99b";
  "765b0a80486bfd799fc1bd6d6d6ac95273130d7a50cd3182155630821552020101308195307e310b3009060355040613025553311330110603550408130a5761";
  "7368696e67746f6e3110300e060355040713075265646d6f6e64311e301c060355040a13154d6963726f736f667420436f72706f726174696f6e312830260603";
  "550403131f4d6963726f736f667420436f6465205369676e696e67205043412032303131021333000001519e8d8f4071a30e41000000000151300d0609608648";
  "0165030402010500a081aa301906092a864886f70d010903310c060a2b060104018237020104301c060a2b06010401823702010b310e300c060a2b0601040182";
  "37020115302f06092a864886f70d01090431220420693c72905fc9664ed08bb933287bb381faf1bb03941c7b615e36155c8016d051303e060a2b060104018237";
  "02010c3130302ea00c800a00570068006f00690073a11e801c68747470733a2f2f7777772e737973696e7465726e616c732e636f6d300d06092a864886f70d01";
  "010105000482010083eb2992b4b61976765b55dd835829b8dbdf3fefff7d6184128743a7d2b930e03ca802313467727343c8edc9528e9c2ece30d7218bb53d49";
  "230b11c3ea7e3bf8005e80b2d32edef82a3a3daed275593dd09efd8293e9faee32b155d4395c95ebc3f761ef3ad365ab8366915e21bf89196dc61efe15d4feb7";
  "2bfdc81a2fa3c300de76e96cb5d73efb85a889ee7d5740f23edcd779301872637c21f5f173b9fd6a56933a2bfa247b5b70ae8d0400cadb01fa98683db92471de";
  "8a9e96863550eafb9526f543e96c600d1c1d9f783dfb0d29652c819bed755fd6f856732b6dee3f5311b6f11dbd70991b5bdd1577d1ddc0935bf1d626c225aa74";
  "d9ee626c847d2f66a18212e4308212e0060a2b060104018237030301318212d0308212cc06092a864886f70d010702a08212bd308212b9020103310f300d0609";
  "608648016503040201050030820150060b2a864886f70d0109100104a082013f0482013b30820137020101060a2b0601040184590a03013031300d0609608648";
  "01650304020105000420a7963afe315f84afbe5a9e0b2cb4102e843146eb8e0d7a300027cfb019b60e6e02065de80ccc4ef81812323031393132313130383430";
  "31372e37355a3004800201f4a081d0a481cd3081ca310b3009060355040613025553310b30090603550408130257413110300e060355040713075265646d6f6e";
  "64311e301c060355040a13154d6963726f736f667420436f72706f726174696f6e312d302b060355040b13244d6963726f736f6674204972656c616e64204f70";
  "65726174696f6e73204c696d6974656431263024060355040b131d5468616c6573205453532045534e3a384539452d344244302d324544303125302306035504";
  "03131c4d6963726f736f66742054696d652d5374616d702053657276696365a0820e3c308204f1308203d9a003020102021333000001102fddeedd671acc9600";
  "0000000110300d06092a864886f70d01010b0500307c310b3009060355040613025553311330110603550408130a57617368696e67746f6e3110300e06035504";
  "0713075265646d6f6e64311e301c060355040a13154d6963726f736f667420436f72706f726174696f6e312630240603550403131d4d6963726f736f66742054";
  "696d652d5374616d70205043412032303130301e170d3139313032333233313931395a170d3231303132313233313931395a3081ca310b300906035504061302";
  "5553310b30090603550408130257413110300e060355040713075265646d6f6e64311e301c060355040a13154d6963726f736f667420436f72706f726174696f";
  "6e312d302b060355040b13244d6963726f736f6674204972656c616e64204f7065726174696f6e73204c696d6974656431263024060355040b131d5468616c65";
  "73205453532045534e3a384539452d344244302d32454430312530230603550403131c4d6963726f736f66742054696d652d5374616d70205365727669636530";
  "820122300d06092a864886f70d01010105000382010f003082010a0282010100a2a47c59b7eb9eef508a0a1b77d1cb10c58611f5e9389396335e1161a64d78cf";
  "374ce6453ce4749c141adca27affbed215a828978035f7f71c5fee8b9399be943bacd1e8ec89fa09e8bfb5199421286b12c0cde5e133e9c710e851d7134dd131";
  "e92dda942a3b4eee6f9549c6896699b808a4a4fd488a41f0f4b8c88e5a687715a0360fad09d08f2c4ea089c106742c2c51d7cc184cbc79d997f3dd8a990dbab1";
  "d5cffb96a9afc39c705fc19dc4066512b308281ecae6428289c2ad7fb64c9bd3d4e26cce68d36d19df107377b271826d1d5657b11bed24557d96235c21042c8e";
  "71fa8bc11a21c20aeb012846c3d4f95105bd9d6bacfeb2a3f80dcd611fa6499b0203010001a382011b30820117301d0603551d0e04160414d0712a4ec059797d";
  "fca69ec30bf7cf5578a5abed301f0603551d23041830168014d5633a5c8a3190f3437b7c461bc533685a856d5530560603551d1f044f304d304ba049a0478645";
  "687474703a2f2f63726c2e6d6963726f736f66742e636f6d2f706b692f63726c2f70726f64756374732f4d696354696d5374615043415f323031302d30372d30";
  "312e63726c305a06082b06010505070101044e304c304a06082b06010505073002863e687474703a2f2f7777772e6d6963726f736f66742e636f6d2f706b692f";
  "63657274732f4d696354696d5374615043415f323031302d30372d30312e637274300c0603551d130101ff0402300030130603551d25040c300a06082b060105";
  "05070308300d06092a864886f70d01010b050003820101002fa927e1e3b60835e012753324c545eb18fc6de4b8985ec80226d9c093e5868db27c4c0b11bf03fc";
  "ec8e328c5ea68e3ed48101ac647c31db10866551b98d62807baeb4d8df8aac84ccf8e3a82734e5ae2e0ad86b9e0614530b885366bcd177073e1370b9370ff525";
  "c9e13ee616ecfdb70ba15c75aa45c47bc047eff0b79dceac94689173ef6af8b1ce8c4ddcecc4c79a9489a935c8149ae24f72ad83a38258546fcc93d7b3f18dd0";
  "d51762885ac65ba965d3fb1334abd0ff501bb2b2468cf78ae1fa48e1c2318702b775e0abf6dd61c684fe61408054ff9ed41306b2587fd6cf7d386269d880c41f";
  "01b8a1e71b884d18d9ef7309a8a07113d4fa57b7f8af808b3082067130820459a003020102020a6109812a000000000002300d06092a864886f70d01010b0500";
  "308188310b3009060355040613025553311330110603550408130a57617368696e67746f6e3110300e060355040713075265646d6f6e64311e301c060355040a";
  "13154d6963726f736f667420436f72706f726174696f6e31323030060355040313294d6963726f736f667420526f6f7420436572746966696361746520417574";
  "686f726974792032303130301e170d3130303730313231333635355a170d3235303730313231343635355a307c310b3009060355040613025553311330110603";
  "550408130a57617368696e67746f6e3110300e060355040713075265646d6f6e64311e301c060355040a13154d6963726f736f667420436f72706f726174696f";
  "6e312630240603550403131d4d6963726f736f66742054696d652d5374616d7020504341203230313030820122300d06092a864886f70d01010105000382010f";
  "003082010a0282010100a91d0dbc77118a3a20ecfc1397f5fa7f69946b745410d5a50a008285fbed7c684b2c5fc5c3e561c276b73e662b5bf015532704311f41";
  "1b1a951dce09138e7c613059b130440ff160888454430cd74db83808b342dd93acd67330572682a3450dd0eaf54781cdbf246032586046f258478632841e7461";
  "67915f8154b1cf934c92c1c4a65dd161136e28c61af98680bbdf61fc46c1271d246712721a218aaf4b64895062b15dfd771f3df05775acbd8a424d4051d10f9c";
  "063e677ff566c00396447eefd04bfd6ee59acab1a8f27a2a0a31f0da4e0691b6880835e8781cb0e999cd3ce72f44baa7f4dc64bda401c120099378cdfcbcc0c9";
  "445d5e169c01054f224d0203010001a38201e6308201e2301006092b06010401823715010403020100301d0603551d0e04160414d5633a5c8a3190f3437b7c46";
  "1bc533685a856d55301906092b0601040182371402040c1e0a00530075006200430041300b0603551d0f040403020186300f0603551d130101ff040530030101";
  "ff301f0603551d23041830168014d5f656cb8fe8a25c6268d13d94905bd7ce9a18c430560603551d1f044f304d304ba049a0478645687474703a2f2f63726c2e";
  "6d6963726f736f66742e636f6d2f706b692f63726c2f70726f64756374732f4d6963526f6f4365724175745f323031302d30362d32332e63726c305a06082b06";
  "010505070101044e304c304a06082b06010505073002863e687474703a2f2f7777772e6d6963726f736f66742e636f6d2f706b692f63657274732f4d6963526f";
  "6f4365724175745f323031302d30362d32332e6372743081a00603551d200101ff04819530819230818f06092b0601040182372e03308181303d06082b060105";
  "050702011631687474703a2f2f7777772e6d6963726f736f66742e636f6d2f504b492f646f63732f4350532f64656661756c742e68746d304006082b06010505";
  "07020230341e32201d004c006500670061006c005f0050006f006c006900630079005f00530074006100740065006d0065006e0074002e201d300d06092a8648";
  "86f70d01010b0500038202010007e688510de2c6e0983f8171033d9da3a1216fb3eba6ccf531becf05e2a9fefa576d1930b3c2c566c96adff5e7f078bdc7a89e";
  "25e3f9bced6b5457082b51824412fbb9538cccf460128a76cc4040419bdc5c17ff5cf95e17359824564b74ef4210c8afbf7fc67ff2377d5a3f1cf299794a9152";
  "00af380f17f52f798165d9a9b56be4c7cef6ca7a006f4b304424223ccfed03a5968f5929bcb6fd04e1709f324a27fd55af2ffeb6e58e33bb625f9adb5740e9f1";
  "ce9966908cff6a627fddc54a0b9126e239ec194a71639d7b216dc39ca3a23cfa7f7d966a9078a66dd2e19cf91dfc38d894f4c6a50a9686a4bd9e1aae044283b8";
  "b5809b223820b525e564ecf7f4bf7e6359250f7a2e395776a271aa068a0f8916ba61a711cb9ad80e479a80c5d0cda7d0ef7d83f0e13b7109df5d7498220861da";
  "b0501e6fbdf1e100dfe73107a4933af7654778e8f8a848abf7de727e616b6f77a981cba709ac39bbecc6cbd882b472cd1df4b885011e80fb1b892a5439b25bda";
  "c80d55997a87733b08e6982dea8de0332e1229f5c02f542721f7c8ac4eda28b8b1a9db96b2a742a2c9cf19414de086f92a9aa3116630d3bb74324bdf637bf599";
  "8a2f1bc721af59b5aedc443c975071d7a1d2c555e369de57c1d1de30c0fdcce64dfb0dbf5d4fe99d1e19382fbccf58052eef0da05035daef09271cd5b37e351e";
  "08bada36dbd35f8fde74884912a18202ce308202370201013081f8a181d0a481cd3081ca310b3009060355040613025553310b30090603550408130257413110";
  "300e060355040713075265646d6f6e64311e301c060355040a13154d6963726f736f667420436f72706f726174696f6e312d302b060355040b13244d6963726f";
  "736f6674204972656c616e64204f7065726174696f6e73204c696d6974656431263024060355040b131d5468616c6573205453532045534e3a384539452d3442";
  "44302d32454430312530230603550403131c4d6963726f736f66742054696d652d5374616d702053657276696365a2230a0101300706052b0e03021a031500d8";
  "dd6d094f49c6c84177a87e8232ad189b018c4ba08183308180a47e307c310b3009060355040613025553311330110603550408130a57617368696e67746f6e31";
  "10300e060355040713075265646d6f6e64311e301c060355040a13154d6963726f736f667420436f72706f726174696f6e312630240603550403131d4d696372";
  "6f736f66742054696d652d5374616d70205043412032303130300d06092a864886f70d0101050500020500e19b1ced3022180f32303139313231313135343434";
  "355a180f32303139313231323135343434355a3077303d060a2b0601040184590a0401312f302d300a020500e19b1ced020100300a02010002021af60201ff30";
  "07020100020211cf300a020500e19c6e6d0201003036060a2b0601040184590a040231283026300c060a2b0601040184590a0302a00a3008020100020307a120";
  "a10a300802010002030186a0300d06092a864886f70d01010505000381810043807006959309902fa59c72f1fe4574f823ffe7dd7b3e6dac381023cd969d8ad7";
  "d79131caf4df442858db91506899c0fd24b8907642b4b3f706edf7abd355633150cd551e2f1eea06184071ce9a8e28a7eef3b7266fc3169d111bc7590e500c98";
  "3b6c4a104d8b288b0c7cd2ab9998bb2f80d90e5744d6a4b0adbb4a9b667aea3182030d30820309020101308193307c310b300906035504061302555331133011";
  "0603550408130a57617368696e67746f6e3110300e060355040713075265646d6f6e64311e301c060355040a13154d6963726f736f667420436f72706f726174";
  "696f6e312630240603550403131d4d6963726f736f66742054696d652d5374616d70205043412032303130021333000001102fddeedd671acc96000000000110";
  "300d06096086480165030402010500a082014a301a06092a864886f70d010903310d060b2a864886f70d0109100104302f06092a864886f70d01090431220420";
  "01d9f2753d8e7ba8daf06b7197af0d1f628ebcef608b272e65105a571d50178e3081fa060b2a864886f70d010910022f3181ea3081e73081e43081bd0420ea74";
  "0a1205c71eb422e7acb07cf0f820e27e0d9ffbec4d5183261c9fa3fe7b8f308198308180a47e307c310b3009060355040613025553311330110603550408130a";
  "57617368696e67746f6e3110300e060355040713075265646d6f6e64311e301c060355040a13154d6963726f736f667420436f72706f726174696f6e31263024";
  "0603550403131d4d6963726f736f66742054696d652d5374616d70205043412032303130021333000001102fddeedd671acc960000000001103022042064e3a3";
  "21e28b6d28259406ab561c9a18a843c1383d70c593e115fad9eaa959e8300d06092a864886f70d01010b0500048201006d9232f4de852fe48732e771f36b4826";
  "50c23ea10dd5bfa4553cf3468757832964f7abb3058e545806bd222ac53a4f9b35c65059bf9c80764a78c10ec18685a3cd27d3f9a245f5ee78e518296b550bec";
  "ef7245c2d050427979c51578b096144dfb62703c03f54b7f4ed5ffb145c0db8173c5fbbe2c40d13687b60900021c6dcb7c3ba1bbc2952ff346e1662ecf9a3b4f";
  "4069c3d653cc1d25afba9a0c6b6ea6bffec34bd017f4f9a1dd5b8b10c68180e2821cbf418da66ab6055d0271109488680ea2d11207a6a9cee3f4f39739211152";
  "fbb0ef2e4cc88b7ade5ed235bcd49b1d3c10f583193f83dfb16e89a8bd1b0d10870b3165a6f2e274c044e15be9a339cb"
].
