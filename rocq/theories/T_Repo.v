(** * The unit tests of /repo, run on the model.

    Every [#[test]] of the repository is replayed by computation, with the test's own
    input and expected output.  The URL and mappings libraries are the reference
    implementations [RefUrl] and [RefLib]. *)
From Verif Require Import Base M_ArraySet M_Base64 M_Base64Vlq M_BinarySearch M_Mapping M_Generator M_SourceMap
  M_Json M_Util M_MapLib M_Consumer M_Indexed F_UrlRef F_MapLibRef S_Consumer.

(** src/base64.rs:16-21, test_encode *)
Example test_encode :
  base64_encode 0 = Some (ch "A") /\ base64_encode 26 = Some (ch "a") /\ base64_encode 64 = None.
Proof. repeat split; reflexivity. Qed.

(** src/base64_vlq.rs:57-63, test_to_vlq_signed *)
Example test_to_vlq_signed :
  map (to_vlq_signed Debug) [1; -1; 2; -2] = map Ok [2; 3; 4; 5].
Proof. reflexivity. Qed.

(** src/base64_vlq.rs:65-664, test_base64vlq_encode: the whole table *)
Definition vlqs : list (Z * str) := [
  (-255, lit "/P"); (-254, lit "9P"); (-253, lit "7P"); (-252, lit "5P"); (-251, lit "3P"); (-250, lit "1P");
  (-249, lit "zP"); (-248, lit "xP"); (-247, lit "vP"); (-246, lit "tP"); (-245, lit "rP"); (-244, lit "pP");
  (-243, lit "nP"); (-242, lit "lP"); (-241, lit "jP"); (-240, lit "hP"); (-239, lit "/O"); (-238, lit "9O");
  (-237, lit "7O"); (-236, lit "5O"); (-235, lit "3O"); (-234, lit "1O"); (-233, lit "zO"); (-232, lit "xO");
  (-231, lit "vO"); (-230, lit "tO"); (-229, lit "rO"); (-228, lit "pO"); (-227, lit "nO"); (-226, lit "lO");
  (-225, lit "jO"); (-224, lit "hO"); (-223, lit "/N"); (-222, lit "9N"); (-221, lit "7N"); (-220, lit "5N");
  (-219, lit "3N"); (-218, lit "1N"); (-217, lit "zN"); (-216, lit "xN"); (-215, lit "vN"); (-214, lit "tN");
  (-213, lit "rN"); (-212, lit "pN"); (-211, lit "nN"); (-210, lit "lN"); (-209, lit "jN"); (-208, lit "hN");
  (-207, lit "/M"); (-206, lit "9M"); (-205, lit "7M"); (-204, lit "5M"); (-203, lit "3M"); (-202, lit "1M");
  (-201, lit "zM"); (-200, lit "xM"); (-199, lit "vM"); (-198, lit "tM"); (-197, lit "rM"); (-196, lit "pM");
  (-195, lit "nM"); (-194, lit "lM"); (-193, lit "jM"); (-192, lit "hM"); (-191, lit "/L"); (-190, lit "9L");
  (-189, lit "7L"); (-188, lit "5L"); (-187, lit "3L"); (-186, lit "1L"); (-185, lit "zL"); (-184, lit "xL");
  (-183, lit "vL"); (-182, lit "tL"); (-181, lit "rL"); (-180, lit "pL"); (-179, lit "nL"); (-178, lit "lL");
  (-177, lit "jL"); (-176, lit "hL"); (-175, lit "/K"); (-174, lit "9K"); (-173, lit "7K"); (-172, lit "5K");
  (-171, lit "3K"); (-170, lit "1K"); (-169, lit "zK"); (-168, lit "xK"); (-167, lit "vK"); (-166, lit "tK");
  (-165, lit "rK"); (-164, lit "pK"); (-163, lit "nK"); (-162, lit "lK"); (-161, lit "jK"); (-160, lit "hK");
  (-159, lit "/J"); (-158, lit "9J"); (-157, lit "7J"); (-156, lit "5J"); (-155, lit "3J"); (-154, lit "1J");
  (-153, lit "zJ"); (-152, lit "xJ"); (-151, lit "vJ"); (-150, lit "tJ"); (-149, lit "rJ"); (-148, lit "pJ");
  (-147, lit "nJ"); (-146, lit "lJ"); (-145, lit "jJ"); (-144, lit "hJ"); (-143, lit "/I"); (-142, lit "9I");
  (-141, lit "7I"); (-140, lit "5I"); (-139, lit "3I"); (-138, lit "1I"); (-137, lit "zI"); (-136, lit "xI");
  (-135, lit "vI"); (-134, lit "tI"); (-133, lit "rI"); (-132, lit "pI"); (-131, lit "nI"); (-130, lit "lI");
  (-129, lit "jI"); (-128, lit "hI"); (-127, lit "/H"); (-126, lit "9H"); (-125, lit "7H"); (-124, lit "5H");
  (-123, lit "3H"); (-122, lit "1H"); (-121, lit "zH"); (-120, lit "xH"); (-119, lit "vH"); (-118, lit "tH");
  (-117, lit "rH"); (-116, lit "pH"); (-115, lit "nH"); (-114, lit "lH"); (-113, lit "jH"); (-112, lit "hH");
  (-111, lit "/G"); (-110, lit "9G"); (-109, lit "7G"); (-108, lit "5G"); (-107, lit "3G"); (-106, lit "1G");
  (-105, lit "zG"); (-104, lit "xG"); (-103, lit "vG"); (-102, lit "tG"); (-101, lit "rG"); (-100, lit "pG");
  (-99, lit "nG"); (-98, lit "lG"); (-97, lit "jG"); (-96, lit "hG"); (-95, lit "/F"); (-94, lit "9F");
  (-93, lit "7F"); (-92, lit "5F"); (-91, lit "3F"); (-90, lit "1F"); (-89, lit "zF"); (-88, lit "xF");
  (-87, lit "vF"); (-86, lit "tF"); (-85, lit "rF"); (-84, lit "pF"); (-83, lit "nF"); (-82, lit "lF");
  (-81, lit "jF"); (-80, lit "hF"); (-79, lit "/E"); (-78, lit "9E"); (-77, lit "7E"); (-76, lit "5E");
  (-75, lit "3E"); (-74, lit "1E"); (-73, lit "zE"); (-72, lit "xE"); (-71, lit "vE"); (-70, lit "tE");
  (-69, lit "rE"); (-68, lit "pE"); (-67, lit "nE"); (-66, lit "lE"); (-65, lit "jE"); (-64, lit "hE");
  (-63, lit "/D"); (-62, lit "9D"); (-61, lit "7D"); (-60, lit "5D"); (-59, lit "3D"); (-58, lit "1D");
  (-57, lit "zD"); (-56, lit "xD"); (-55, lit "vD"); (-54, lit "tD"); (-53, lit "rD"); (-52, lit "pD");
  (-51, lit "nD"); (-50, lit "lD"); (-49, lit "jD"); (-48, lit "hD"); (-47, lit "/C"); (-46, lit "9C");
  (-45, lit "7C"); (-44, lit "5C"); (-43, lit "3C"); (-42, lit "1C"); (-41, lit "zC"); (-40, lit "xC");
  (-39, lit "vC"); (-38, lit "tC"); (-37, lit "rC"); (-36, lit "pC"); (-35, lit "nC"); (-34, lit "lC");
  (-33, lit "jC"); (-32, lit "hC"); (-31, lit "/B"); (-30, lit "9B"); (-29, lit "7B"); (-28, lit "5B");
  (-27, lit "3B"); (-26, lit "1B"); (-99, lit "nG"); (-98, lit "lG"); (-97, lit "jG"); (-96, lit "hG");
  (-95, lit "/F"); (-94, lit "9F"); (-93, lit "7F"); (-92, lit "5F"); (-91, lit "3F"); (-90, lit "1F");
  (-89, lit "zF"); (-88, lit "xF"); (-87, lit "vF"); (-86, lit "tF"); (-85, lit "rF"); (-84, lit "pF");
  (-83, lit "nF"); (-82, lit "lF"); (-81, lit "jF"); (-80, lit "hF"); (-79, lit "/E"); (-78, lit "9E");
  (-77, lit "7E"); (-76, lit "5E"); (-75, lit "3E"); (-74, lit "1E"); (-73, lit "zE"); (-72, lit "xE");
  (-71, lit "vE"); (-70, lit "tE"); (-69, lit "rE"); (-68, lit "pE"); (-67, lit "nE"); (-66, lit "lE");
  (-65, lit "jE"); (-64, lit "hE"); (-63, lit "/D"); (-62, lit "9D"); (-61, lit "7D"); (-60, lit "5D");
  (-59, lit "3D"); (-58, lit "1D"); (-57, lit "zD"); (-56, lit "xD"); (-55, lit "vD"); (-54, lit "tD");
  (-53, lit "rD"); (-52, lit "pD"); (-51, lit "nD"); (-50, lit "lD"); (-49, lit "jD"); (-48, lit "hD");
  (-47, lit "/C"); (-46, lit "9C"); (-45, lit "7C"); (-44, lit "5C"); (-43, lit "3C"); (-42, lit "1C");
  (-41, lit "zC"); (-40, lit "xC"); (-39, lit "vC"); (-38, lit "tC"); (-37, lit "rC"); (-36, lit "pC");
  (-35, lit "nC"); (-34, lit "lC"); (-33, lit "jC"); (-32, lit "hC"); (-31, lit "/B"); (-30, lit "9B");
  (-29, lit "7B"); (-28, lit "5B"); (-27, lit "3B"); (-26, lit "1B"); (-25, lit "zB"); (-24, lit "xB");
  (-23, lit "vB"); (-22, lit "tB"); (-21, lit "rB"); (-20, lit "pB"); (-19, lit "nB"); (-18, lit "lB");
  (-17, lit "jB"); (-16, lit "hB"); (-25, lit "zB"); (-24, lit "xB"); (-23, lit "vB"); (-22, lit "tB");
  (-21, lit "rB"); (-20, lit "pB"); (-19, lit "nB"); (-18, lit "lB"); (-17, lit "jB"); (-16, lit "hB");
  (-15, lit "f"); (-14, lit "d"); (-13, lit "b"); (-12, lit "Z"); (-11, lit "X"); (-10, lit "V");
  (-9, lit "T"); (-8, lit "R"); (-7, lit "P"); (-6, lit "N"); (-5, lit "L"); (-4, lit "J");
  (-3, lit "H"); (-2, lit "F"); (-1, lit "D"); (0, lit "A"); (1, lit "C"); (2, lit "E");
  (3, lit "G"); (4, lit "I"); (5, lit "K"); (6, lit "M"); (7, lit "O"); (8, lit "Q");
  (9, lit "S"); (10, lit "U"); (11, lit "W"); (12, lit "Y"); (13, lit "a"); (14, lit "c");
  (15, lit "e"); (16, lit "gB"); (17, lit "iB"); (18, lit "kB"); (19, lit "mB"); (20, lit "oB");
  (21, lit "qB"); (22, lit "sB"); (23, lit "uB"); (24, lit "wB"); (25, lit "yB"); (26, lit "0B");
  (27, lit "2B"); (28, lit "4B"); (29, lit "6B"); (30, lit "8B"); (31, lit "+B"); (32, lit "gC");
  (33, lit "iC"); (34, lit "kC"); (35, lit "mC"); (36, lit "oC"); (37, lit "qC"); (38, lit "sC");
  (39, lit "uC"); (40, lit "wC"); (41, lit "yC"); (42, lit "0C"); (43, lit "2C"); (44, lit "4C");
  (45, lit "6C"); (46, lit "8C"); (47, lit "+C"); (48, lit "gD"); (49, lit "iD"); (50, lit "kD");
  (51, lit "mD"); (52, lit "oD"); (53, lit "qD"); (54, lit "sD"); (55, lit "uD"); (56, lit "wD");
  (57, lit "yD"); (58, lit "0D"); (59, lit "2D"); (60, lit "4D"); (61, lit "6D"); (62, lit "8D");
  (63, lit "+D"); (64, lit "gE"); (65, lit "iE"); (66, lit "kE"); (67, lit "mE"); (68, lit "oE");
  (69, lit "qE"); (70, lit "sE"); (71, lit "uE"); (72, lit "wE"); (73, lit "yE"); (74, lit "0E");
  (75, lit "2E"); (76, lit "4E"); (77, lit "6E"); (78, lit "8E"); (79, lit "+E"); (80, lit "gF");
  (81, lit "iF"); (82, lit "kF"); (83, lit "mF"); (84, lit "oF"); (85, lit "qF"); (86, lit "sF");
  (87, lit "uF"); (88, lit "wF"); (89, lit "yF"); (90, lit "0F"); (91, lit "2F"); (92, lit "4F");
  (93, lit "6F"); (94, lit "8F"); (95, lit "+F"); (96, lit "gG"); (97, lit "iG"); (98, lit "kG");
  (99, lit "mG"); (100, lit "oG"); (101, lit "qG"); (102, lit "sG"); (103, lit "uG"); (104, lit "wG");
  (105, lit "yG"); (106, lit "0G"); (107, lit "2G"); (108, lit "4G"); (109, lit "6G"); (110, lit "8G");
  (111, lit "+G"); (112, lit "gH"); (113, lit "iH"); (114, lit "kH"); (115, lit "mH"); (116, lit "oH");
  (117, lit "qH"); (118, lit "sH"); (119, lit "uH"); (120, lit "wH"); (121, lit "yH"); (122, lit "0H");
  (123, lit "2H"); (124, lit "4H"); (125, lit "6H"); (126, lit "8H"); (127, lit "+H"); (128, lit "gI");
  (129, lit "iI"); (130, lit "kI"); (131, lit "mI"); (132, lit "oI"); (133, lit "qI"); (134, lit "sI");
  (135, lit "uI"); (136, lit "wI"); (137, lit "yI"); (138, lit "0I"); (139, lit "2I"); (140, lit "4I");
  (141, lit "6I"); (142, lit "8I"); (143, lit "+I"); (144, lit "gJ"); (145, lit "iJ"); (146, lit "kJ");
  (147, lit "mJ"); (148, lit "oJ"); (149, lit "qJ"); (150, lit "sJ"); (151, lit "uJ"); (152, lit "wJ");
  (157, lit "6J"); (158, lit "8J"); (159, lit "+J"); (160, lit "gK"); (161, lit "iK"); (162, lit "kK");
  (163, lit "mK"); (164, lit "oK"); (165, lit "qK"); (166, lit "sK"); (167, lit "uK"); (168, lit "wK");
  (169, lit "yK"); (170, lit "0K"); (171, lit "2K"); (172, lit "4K"); (173, lit "6K"); (174, lit "8K");
  (175, lit "+K"); (176, lit "gL"); (177, lit "iL"); (178, lit "kL"); (179, lit "mL"); (180, lit "oL");
  (181, lit "qL"); (182, lit "sL"); (183, lit "uL"); (184, lit "wL"); (185, lit "yL"); (186, lit "0L");
  (187, lit "2L"); (188, lit "4L"); (189, lit "6L"); (190, lit "8L"); (191, lit "+L"); (192, lit "gM");
  (193, lit "iM"); (194, lit "kM"); (195, lit "mM"); (196, lit "oM"); (197, lit "qM"); (198, lit "sM");
  (199, lit "uM"); (200, lit "wM"); (201, lit "yM"); (202, lit "0M"); (203, lit "2M"); (204, lit "4M");
  (205, lit "6M"); (206, lit "8M"); (207, lit "+M"); (208, lit "gN"); (209, lit "iN"); (210, lit "kN");
  (211, lit "mN"); (212, lit "oN"); (213, lit "qN"); (214, lit "sN"); (215, lit "uN"); (216, lit "wN");
  (217, lit "yN"); (218, lit "0N"); (219, lit "2N"); (220, lit "4N"); (221, lit "6N"); (222, lit "8N");
  (223, lit "+N"); (224, lit "gO"); (225, lit "iO"); (226, lit "kO"); (227, lit "mO"); (228, lit "oO");
  (229, lit "qO"); (230, lit "sO"); (231, lit "uO"); (232, lit "wO"); (233, lit "yO"); (234, lit "0O");
  (235, lit "2O"); (236, lit "4O"); (237, lit "6O"); (238, lit "8O"); (239, lit "+O"); (240, lit "gP");
  (241, lit "iP"); (242, lit "kP"); (243, lit "mP"); (244, lit "oP"); (245, lit "qP"); (246, lit "sP");
  (247, lit "uP"); (248, lit "wP"); (249, lit "yP"); (250, lit "0P"); (251, lit "2P"); (252, lit "4P");
  (253, lit "6P"); (254, lit "8P"); (255, lit "+P")
].
Example test_base64vlq_encode :
  List.length vlqs = 591%nat
  /\ forallb (fun v => match base64vlq_encode Debug (fst v) with Ok s => str_eqb s (snd v) | Panic _ => false end) vlqs = true.
Proof. vm_compute. split; reflexivity. Qed.

(** src/binary_search.rs:112-219 *)
Definition number_cmp (a b : Z) : res Z := i32_sub Debug a b.
Definition evens : list Z := [2; 4; 6; 8; 10; 12; 14; 16; 18; 20].
Definition found (needle : Z) (bias : option Z) : res Z :=
  let* i := search Debug needle evens number_cmp number_cmp bias in vec_index evens (to_usize i).
Example test_binary_search :
  found 30 None = Ok 20                            (* test_too_high_with_default_bias *)
  /\ found 1 (Some LEAST_UPPER_BOUND) = Ok 2       (* test_too_low_with_default_bias *)
  /\ found 4 None = Ok 4                           (* test_exact_search *)
  /\ found 19 None = Ok 18                         (* test_fuzzy_search_with_glb_bias *)
  /\ found 19 (Some LEAST_UPPER_BOUND) = Ok 20     (* test_fuzzy_search_with_lub_bias *)
  /\ search Debug 5 [1; 1; 2; 5; 5; 5; 13; 21] number_cmp number_cmp (Some LEAST_UPPER_BOUND) = Ok 3  (* test_multiple_matches *)
  /\ search Debug 1 [1; 1; 2; 5; 5; 5; 13; 21] number_cmp number_cmp (Some LEAST_UPPER_BOUND) = Ok 0. (* test_multiple_matches_at_beginning *)
Proof. vm_compute. repeat split; reflexivity. Qed.

(** src/generator.rs:219-233, simple, and 235-248, simple_json *)
Example test_simple :
  answer (gen_as_json Debug RefUrl (gen_new (Some (lit "foo.js")) (Some (lit ".")) false))
    = Ok (mkSMJ 3 (Some []) (Some []) (Some []) (Some (lit "foo.js")) (Some (lit ".")) None None)
  /\ answer (gen_as_string Debug RefUrl (gen_new (Some (lit "foo.js")) (Some (lit ".")) false))
    = Ok (lit "{""version"":3,""sources"":[],""names"":[],""mappings"":"""",""file"":""foo.js"",""sourceRoot"":"".""}").
Proof. vm_compute. split; reflexivity. Qed.

(** src/generator.rs:250-408, mappings *)
Definition at_ (gl gc ol oc : Z) (source : str) (name : option str) : Mapping :=
  mkMapping (mkPos gl gc) (Some (mkPos ol oc)) (Some source) name None.
Definition test_mappings_input : list Mapping := [
  at_ 1 1 1 1 (lit "one.js") None;
  at_ 1 5 1 5 (lit "one.js") None;
  at_ 1 9 1 11 (lit "one.js") None;
  at_ 1 18 1 21 (lit "one.js") (Some (lit "bar"));
  at_ 1 21 2 3 (lit "one.js") None;
  at_ 1 28 2 10 (lit "one.js") (Some (lit "baz"));
  at_ 1 32 2 14 (lit "one.js") (Some (lit "bar"));
  at_ 2 1 1 1 (lit "two.js") None;
  at_ 2 5 1 5 (lit "two.js") None;
  at_ 2 9 1 11 (lit "two.js") None;
  at_ 2 18 1 21 (lit "two.js") (Some (lit "n"));
  at_ 2 21 2 3 (lit "two.js") None;
  at_ 2 28 2 10 (lit "two.js") (Some (lit "n"))].
Definition test_mappings_generator : res Generator :=
  fold_left (fun g m => let* g := g in gen_add_mapping Debug g m) test_mappings_input
    (Ok (gen_new (Some (lit "min.js")) (Some (lit "/the/root")) false)).
Example test_mappings :
  (let* g := test_mappings_generator in answer (gen_as_string Debug RefUrl g))
    = Ok (lit "{""version"":3,""sources"":[""one.js"",""two.js""],""names"":[""bar"",""baz"",""n""],""mappings"":""CAAC,IAAI,IAAM,SAAUA,GAClB,OAAOC,IAAID;CCDb,IAAI,IAAM,SAAUE,GAClB,OAAOA"",""file"":""min.js"",""sourceRoot"":""/the/root""}").
Proof. vm_compute. reflexivity. Qed.

(** src/constants.rs: the maps used by the consumer tests, and the other valid ones *)

(* src/constants.rs:21 *)
Definition testMap : str := lit "{
  ""version"": 3,
  ""file"": ""min.js"",
  ""names"": [""bar"", ""baz"", ""n""],
  ""sources"": [""one.js"", ""two.js""],
  ""sourceRoot"": ""/the/root"",
  ""mappings"":
  ""CAAC,IAAI,IAAM,SAAUA,GAClB,OAAOC,IAAID;CCDb,IAAI,IAAM,SAAUE,GAClB,OAAOA""
}".

(* src/constants.rs:39 *)
Definition testMapNoSourceRoot : str := lit " {
""version"": 3,
""file"": ""min.js"",
""names"": [""bar"", ""baz"", ""n""],
""sources"": [""one.js"", ""two.js""],
""mappings"":
 ""CAAC,IAAI,IAAM,SAAUA,GAClB,OAAOC,IAAID;CCDb,IAAI,IAAM,SAAUE,GAClB,OAAOA""
}".

(* src/constants.rs:57 *)
Definition testMapEmptySourceRoot : str := lit "{
""version"": 3,
""file"": ""min.js"",
""names"": [""bar"", ""baz"", ""n""],
""sources"": [""one.js"", ""two.js""],
""sourceRoot"": """",
""mappings"":
 ""CAAC,IAAI,IAAM,SAAUA,GAClB,OAAOC,IAAID;CCDb,IAAI,IAAM,SAAUE,GAClB,OAAOA""
}".

(* src/constants.rs:75 *)
Definition testMapSingleSource : str := lit "
{
""version"": 3,
""file"": ""min.js"",
""names"": [""bar"", ""baz""],
""sources"": [""one.js""],
""sourceRoot"": """",
""mappings"": ""CAAC,IAAI,IAAM,SAAUA,GAClB,OAAOC,IAAID""
}
".

(* src/constants.rs:95 *)
Definition testMapEmptyMappings : str := lit "
{
""version"": 3,
""file"": ""min.js"",
""names"": [],
""sources"": [""one.js"", ""two.js""],
""sourcesContent"": ["" ONE.foo = 1;"", "" TWO.inc = 2;""],
""sourceRoot"": """",
""mappings"": """"
}
".

(* src/constants.rs:116 *)
Definition testMapEmptyMappingsRelativeSources : str := lit "
{
""version"": 3,
""file"": ""min.js"",
""names"": [],
""sources"": [""./one.js"", ""./two.js""],
""sourcesContent"": ["" ONE.foo = 1;"", "" TWO.inc = 2;""],
""sourceRoot"": ""/the/root"",
""mappings"": """"
}
".

(* src/constants.rs:137 *)
Definition testMapEmptyMappingsRelativeSources_generatedExpected : str := lit "
{
""version"": 3,
""file"": ""min.js"",
""names"": [],
""sources"": [""one.js"", ""two.js""],
""sourcesContent"": ["" ONE.foo = 1;"", "" TWO.inc = 2;""],
""sourceRoot"": ""/the/root"",
""mappings"": """"
}
".

(* src/constants.rs:157 *)
Definition testMapMultiSourcesMappingRefersSingleSourceOnly : str := lit "
{
""version"": 3,
""file"": ""min.js"",
""names"": [""bar"", ""baz""],
""sources"": [""one.js"", ""withoutMappings.js""],
""sourceRoot"": """",
 mappings: ""CAAC,IAAI,IAAM,SAAUA,GAClB,OAAOC,IAAID""
}
".

(* src/constants.rs:207 *)
Definition indexedTestMap : str := lit "{
  ""version"": 3,
  ""file"": ""min.js"",
  ""sections"": [
    {
      ""offset"": {
        ""line"": 0,
        ""column"": 0
      },
      ""map"": {
        ""version"": 3,
        ""sources"": [""one.js""],
        ""sourcesContent"": [
          "" ONE.foo = function (bar) {\n   return baz(bar);\n };""
        ],
        ""names"": [""bar"", ""baz""],
        ""mappings"": ""CAAC,IAAI,IAAM,SAAUA,GAClB,OAAOC,IAAID"",
        ""file"": ""min.js"",
        ""sourceRoot"": ""/the/root""
      }
    },
    {
      ""offset"": {
        ""line"": 1,
        ""column"": 0
      },
      ""map"": {
        ""version"": 3,
        ""sources"": [""two.js""],
        ""sourcesContent"": ["" TWO.inc = function (n) {\n   return n + 1;\n };""],
        ""names"": [""n""],
        ""mappings"": ""CAAC,IAAI,IAAM,SAAUA,GAClB,OAAOA"",
        ""file"": ""min.js"",
        ""sourceRoot"": ""/the/root""
      }
    }
  ]
}
".

(* src/constants.rs:285 *)
Definition indexedTestMapDifferentSourceRoots : str := lit "
{
""version"": 3,
""file"": ""min.js"",
 ""sections"": [
     {
         ""offset"": {
             ""line"": 0,
             ""column"": 0
        },
         ""map"": {
             ""version"": 3,
             ""sources"": [""one.js""],
             ""sourcesContent"": [
                "" ONE.foo = function (bar) {\n   return baz(bar);\n };""
            ],
             ""names"": [""bar"", ""baz""],
             ""mappings"": ""CAAC,IAAI,IAAM,SAAUA,GAClB,OAAOC,IAAID"",
             ""file"": ""min.js"",
             ""sourceRoot"": ""/the/root""
        }
     },
    {
         ""offset"": {
             ""line"": 1,
             ""column"": 0
        },
         ""map"": {
             ""version"": 3,
             ""sources"": [""two.js""],
             ""sourcesContent"": ["" TWO.inc = function (n) {\n   return n + 1;\n };""],
             ""names"": [""n""],
             ""mappings"": ""CAAC,IAAI,IAAM,SAAUA,GAClB,OAAOA"",
             ""file"": ""min.js"",
             ""sourceRoot"": ""/different/root""
        }
    }
 ]
}
".

(* src/constants.rs:366 *)
Definition indexedTestMapColumnOffset : str := lit "
{
  ""version"": 3,
  ""file"": ""min.js"",
  ""sections"": [
    {
         ""offset"": {
             ""line"": 0,
             ""column"": 0
        },
         ""map"": {
             ""version"": 3,
             ""sources"": [""one.js""],
             ""sourcesContent"": [
                "" ONE.foo = function (bar) {\n   return baz(bar);\n };""
            ],
             ""names"": [""bar"", ""baz""],
             ""mappings"": ""CAAC,IAAI,IAAM,SAAUA,GAClB,OAAOC,IAAID"",
             ""file"": ""min.js"",
             ""sourceRoot"": ""/the/root""
        }
    },
    {
         ""offset"": {
             ""line"": 0,
            // Previous section's last generated mapping is [32, Infinity), so
            // we're placing this a bit after that.
             ""column"": 50
        },
         ""map"": {
             ""version"": 3,
             ""sources"": [""two.js""],
             ""sourcesContent"": ["" TWO.inc = function (n) {\n   return n + 1;\n };""],
             ""names"": [""n""],
             ""mappings"": ""CAAC,IAAI,IAAM,SAAUA,GAClB,OAAOA"",
             ""file"": ""min.js"",
             ""sourceRoot"": ""/the/root""
        }
    }
 ]
}
".

(* src/constants.rs:422 *)
Definition testMapWithSourcesContent : str := lit "
{
  ""version"": 3,
  ""file"": ""min.js"",
  ""names"": [""bar"", ""baz"", ""n""],
  ""sources"": [""one.js"", ""two.js""],
  ""sourcesContent"": [
 "" ONE.foo = function (bar) {\n   return baz(bar);\n };"",
 "" TWO.inc = function (n) {\n   return n + 1;\n };""
 ],
  ""sourceRoot"": ""/the/root"",
  ""mappings"":
 ""CAAC,IAAI,IAAM,SAAUA,GAClB,OAAOC,IAAID;CCDb,IAAI,IAAM,SAAUE,GAClB,OAAOA""
}
".

(* src/constants.rs:451 *)
Definition testMapRelativeSources : str := lit "
{
  ""version"": 3,
  ""file"": ""min.js"",
  ""names"": [""bar"", ""baz"", ""n""],
  ""sources"": [""./one.js"", ""./two.js""],
  ""sourcesContent"": [
 "" ONE.foo = function (bar) {\n   return baz(bar);\n };"",
 "" TWO.inc = function (n) {\n   return n + 1;\n };""
 ],
  ""sourceRoot"": ""/the/root"",
  ""mappings"":
 ""CAAC,IAAI,IAAM,SAAUA,GAClB,OAAOC,IAAID;CCDb,IAAI,IAAM,SAAUE,GAClB,OAAOA""
}
".

(* src/constants.rs:474 *)
Definition emptyMap : str := lit "
{
  ""version"": 3,
  ""file"": ""min.js"",
  ""names"": [],
  ""sources"": [],
  ""mappings"": """"
}
".

(* src/constants.rs:491 *)
Definition mapWithSourcelessMapping : str := lit "
{
  ""version"": 3,
  ""file"": ""example.js"",
  ""names"": [],
  ""sources"": [""example.js""],
  ""mappings"": ""AAgCA,C""
}
".
Definition open_debug (raw : str) : res (option (Consumer RefLib)) :=
  create_consumer Debug RefLib RefUrl [0%nat; 1%nat] raw None.
Definition kind (raw : str) : res string :=
  let* c := open_debug raw in
  Ok match c with None => "Err" | Some (CBasic _) => "basic" | Some (CIndexed _) => "indexed" end%string.
Definition sources (raw : str) : res (list str) :=
  let* c := open_debug raw in
  let* c := unwrap c in
  let* b := as_basic_consumer RefLib c in Ok (bc_get_sources RefLib b).

(** src/consumer_test.rs:13-61: test_instantiate, test_is_consumer, test_no_section, test_has_section *)
Example test_kinds : kind testMap = Ok "basic"%string /\ kind indexedTestMap = Ok "indexed"%string.
Proof. vm_compute. split; reflexivity. Qed.

(** src/consumer_test.rs:104-111 and 113-124: test_sources_has_original_sources, test_sources *)
Example test_sources : sources testMap = Ok [lit "/the/root/one.js"; lit "/the/root/two.js"].
Proof. vm_compute. reflexivity. Qed.

(** The remaining expectations quoted (from the JavaScript library) in the comment at
    src/consumer_test.rs:81-102.  Maps without sourceRoot behave as expected; those with an
    empty sourceRoot panic (see C31), and indexed maps list raw sources (see C53). *)
Example test_sources_comment :
  sources testMapNoSourceRoot = Ok [lit "one.js"; lit "two.js"]
  /\ sources testMapEmptySourceRoot = Panic PUnwrapNone
  /\ sources testMapRelativeSources = Ok [lit "/the/root/one.js"; lit "/the/root/two.js"]
  /\ (let* c := ic_new Debug RefLib RefUrl [0%nat; 1%nat] indexedTestMap None in answer (ic_get_sources RefLib c))
     = Ok [lit "one.js"; lit "two.js"].
Proof. vm_compute. repeat split; reflexivity. Qed.

(** The other constants: two are not valid JSON (an unquoted key, a comment). *)
Example test_other_maps :
  map kind [testMapSingleSource; testMapEmptyMappings; testMapEmptyMappingsRelativeSources;
            testMapEmptyMappingsRelativeSources_generatedExpected; indexedTestMapDifferentSourceRoots;
            testMapWithSourcesContent; emptyMap; mapWithSourcelessMapping]
  = [Panic PUnwrapNone; Panic PUnwrapNone; Ok "basic"; Ok "basic"; Ok "indexed"; Ok "basic"; Ok "basic"; Ok "basic"]%string
  /\ map kind [testMapMultiSourcesMappingRefersSingleSourceOnly; indexedTestMapColumnOffset] = [Ok "Err"; Ok "Err"]%string.
Proof. vm_compute. split; reflexivity. Qed.

(** The test map is what the generator test produces, and reads back as the test's mappings. *)
Example test_map_mappings :
  (let* c := bc_new Debug RefLib RefUrl testMap None in
   let* l := answer (bc_each_mapping RefLib c GeneratedOrd) in Ok (List.length l)) = Ok 13%nat
  /\ (let* g := test_mappings_generator in let* j := answer (gen_as_json Debug RefUrl g) in Ok (smj_mappings j))
     = Ok (match smj_from_str testMap with Some j => smj_mappings j | None => None end).
Proof. vm_compute. split; reflexivity. Qed.
