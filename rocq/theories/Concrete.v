(** Generated by tools/gen_concrete.py. A concrete environment, used only to show that hypotheses can be met and to
    refute claims: the Unicode tables are those of U+0000..U+024F and the letters of U+3400..U+9FFF (other code points are treated as caseless,
    category-less and normalised). *)
From Verif Require Import GoBase Civil GoTime Regex Timezone Env.

Definition assoc_z {A} (d : A) (l : list (Z * A)) (c : Z) : A :=
  match List.find (fun p => fst p =? c) l with Some p => snd p | None => d end.
Definition low_tab : list (Z * Z) := [(192, 224); (193, 225); (194, 226); (195, 227); (196, 228); (197, 229); (198, 230); (199, 231); (200, 232); (201, 233); (202, 234); (203, 235); (204, 236); (205, 237); (206, 238); (207, 239); (208, 240); (209, 241); (210, 242); (211, 243); (212, 244); (213, 245); (214, 246); (216, 248); (217, 249); (218, 250); (219, 251); (220, 252); (221, 253); (222, 254); (256, 257); (258, 259); (260, 261); (262, 263); (264, 265); (266, 267); (268, 269); (270, 271); (272, 273); (274, 275); (276, 277); (278, 279); (280, 281); (282, 283); (284, 285); (286, 287); (288, 289); (290, 291); (292, 293); (294, 295); (296, 297); (298, 299); (300, 301); (302, 303); (306, 307); (308, 309); (310, 311); (313, 314); (315, 316); (317, 318); (319, 320); (321, 322); (323, 324); (325, 326); (327, 328); (330, 331); (332, 333); (334, 335); (336, 337); (338, 339); (340, 341); (342, 343); (344, 345); (346, 347); (348, 349); (350, 351); (352, 353); (354, 355); (356, 357); (358, 359); (360, 361); (362, 363); (364, 365); (366, 367); (368, 369); (370, 371); (372, 373); (374, 375); (376, 255); (377, 378); (379, 380); (381, 382); (385, 595); (386, 387); (388, 389); (390, 596); (391, 392); (393, 598); (394, 599); (395, 396); (398, 477); (399, 601); (400, 603); (401, 402); (403, 608); (404, 611); (406, 617); (407, 616); (408, 409); (412, 623); (413, 626); (415, 629); (416, 417); (418, 419); (420, 421); (422, 640); (423, 424); (425, 643); (428, 429); (430, 648); (431, 432); (433, 650); (434, 651); (435, 436); (437, 438); (439, 658); (440, 441); (444, 445); (452, 454); (453, 454); (455, 457); (456, 457); (458, 460); (459, 460); (461, 462); (463, 464); (465, 466); (467, 468); (469, 470); (471, 472); (473, 474); (475, 476); (478, 479); (480, 481); (482, 483); (484, 485); (486, 487); (488, 489); (490, 491); (492, 493); (494, 495); (497, 499); (498, 499); (500, 501); (502, 405); (503, 447); (504, 505); (506, 507); (508, 509); (510, 511); (512, 513); (514, 515); (516, 517); (518, 519); (520, 521); (522, 523); (524, 525); (526, 527); (528, 529); (530, 531); (532, 533); (534, 535); (536, 537); (538, 539); (540, 541); (542, 543); (544, 414); (546, 547); (548, 549); (550, 551); (552, 553); (554, 555); (556, 557); (558, 559); (560, 561); (562, 563); (570, 11365); (571, 572); (573, 410); (574, 11366); (577, 578); (579, 384); (580, 649); (581, 652); (582, 583); (584, 585); (586, 587); (588, 589); (590, 591)].
Definition upp_tab : list (Z * Z) := [(181, 924); (224, 192); (225, 193); (226, 194); (227, 195); (228, 196); (229, 197); (230, 198); (231, 199); (232, 200); (233, 201); (234, 202); (235, 203); (236, 204); (237, 205); (238, 206); (239, 207); (240, 208); (241, 209); (242, 210); (243, 211); (244, 212); (245, 213); (246, 214); (248, 216); (249, 217); (250, 218); (251, 219); (252, 220); (253, 221); (254, 222); (255, 376); (257, 256); (259, 258); (261, 260); (263, 262); (265, 264); (267, 266); (269, 268); (271, 270); (273, 272); (275, 274); (277, 276); (279, 278); (281, 280); (283, 282); (285, 284); (287, 286); (289, 288); (291, 290); (293, 292); (295, 294); (297, 296); (299, 298); (301, 300); (303, 302); (305, 73); (307, 306); (309, 308); (311, 310); (314, 313); (316, 315); (318, 317); (320, 319); (322, 321); (324, 323); (326, 325); (328, 327); (331, 330); (333, 332); (335, 334); (337, 336); (339, 338); (341, 340); (343, 342); (345, 344); (347, 346); (349, 348); (351, 350); (353, 352); (355, 354); (357, 356); (359, 358); (361, 360); (363, 362); (365, 364); (367, 366); (369, 368); (371, 370); (373, 372); (375, 374); (378, 377); (380, 379); (382, 381); (383, 83); (384, 579); (387, 386); (389, 388); (392, 391); (396, 395); (402, 401); (405, 502); (409, 408); (410, 573); (414, 544); (417, 416); (419, 418); (421, 420); (424, 423); (429, 428); (432, 431); (436, 435); (438, 437); (441, 440); (445, 444); (447, 503); (453, 452); (454, 452); (456, 455); (457, 455); (459, 458); (460, 458); (462, 461); (464, 463); (466, 465); (468, 467); (470, 469); (472, 471); (474, 473); (476, 475); (477, 398); (479, 478); (481, 480); (483, 482); (485, 484); (487, 486); (489, 488); (491, 490); (493, 492); (495, 494); (498, 497); (499, 497); (501, 500); (505, 504); (507, 506); (509, 508); (511, 510); (513, 512); (515, 514); (517, 516); (519, 518); (521, 520); (523, 522); (525, 524); (527, 526); (529, 528); (531, 530); (533, 532); (535, 534); (537, 536); (539, 538); (541, 540); (543, 542); (547, 546); (549, 548); (551, 550); (553, 552); (555, 554); (557, 556); (559, 558); (561, 560); (563, 562); (572, 571); (575, 11390); (576, 11391); (578, 577); (583, 582); (585, 584); (587, 586); (589, 588); (591, 590)].
Definition let_tab : list (Z * Z) := [(170, 170); (181, 181); (186, 186); (192, 214); (216, 246); (248, 591); (13312, 40959)].
Definition num_tab : list (Z * Z) := [(178, 179); (185, 185); (188, 190)].
Definition nfkc_tab : list (Z * list Z) := [(160, [32]); (168, [32; 776]); (170, [97]); (175, [32; 772]); (178, [50]); (179, [51]); (180, [32; 769]); (181, [956]); (184, [32; 807]); (185, [49]); (186, [111]); (188, [49; 8260; 52]); (189, [49; 8260; 50]); (190, [51; 8260; 52]); (306, [73; 74]); (307, [105; 106]); (319, [76; 183]); (320, [108; 183]); (329, [700; 110]); (383, [115]); (452, [68; 381]); (453, [68; 382]); (454, [100; 382]); (455, [76; 74]); (456, [76; 106]); (457, [108; 106]); (458, [78; 74]); (459, [78; 106]); (460, [110; 106]); (497, [68; 90]); (498, [68; 122]); (499, [100; 122])].
Definition nomn_tab : list (Z * list Z) := [(160, [32]); (168, [32]); (170, [97]); (175, [32]); (178, [50]); (179, [51]); (180, [32]); (181, [956]); (184, [32]); (185, [49]); (186, [111]); (188, [49; 8260; 52]); (189, [49; 8260; 50]); (190, [51; 8260; 52]); (192, [65]); (193, [65]); (194, [65]); (195, [65]); (196, [65]); (197, [65]); (199, [67]); (200, [69]); (201, [69]); (202, [69]); (203, [69]); (204, [73]); (205, [73]); (206, [73]); (207, [73]); (209, [78]); (210, [79]); (211, [79]); (212, [79]); (213, [79]); (214, [79]); (217, [85]); (218, [85]); (219, [85]); (220, [85]); (221, [89]); (224, [97]); (225, [97]); (226, [97]); (227, [97]); (228, [97]); (229, [97]); (231, [99]); (232, [101]); (233, [101]); (234, [101]); (235, [101]); (236, [105]); (237, [105]); (238, [105]); (239, [105]); (241, [110]); (242, [111]); (243, [111]); (244, [111]); (245, [111]); (246, [111]); (249, [117]); (250, [117]); (251, [117]); (252, [117]); (253, [121]); (255, [121]); (256, [65]); (257, [97]); (258, [65]); (259, [97]); (260, [65]); (261, [97]); (262, [67]); (263, [99]); (264, [67]); (265, [99]); (266, [67]); (267, [99]); (268, [67]); (269, [99]); (270, [68]); (271, [100]); (274, [69]); (275, [101]); (276, [69]); (277, [101]); (278, [69]); (279, [101]); (280, [69]); (281, [101]); (282, [69]); (283, [101]); (284, [71]); (285, [103]); (286, [71]); (287, [103]); (288, [71]); (289, [103]); (290, [71]); (291, [103]); (292, [72]); (293, [104]); (296, [73]); (297, [105]); (298, [73]); (299, [105]); (300, [73]); (301, [105]); (302, [73]); (303, [105]); (304, [73]); (306, [73; 74]); (307, [105; 106]); (308, [74]); (309, [106]); (310, [75]); (311, [107]); (313, [76]); (314, [108]); (315, [76]); (316, [108]); (317, [76]); (318, [108]); (319, [76; 183]); (320, [108; 183]); (323, [78]); (324, [110]); (325, [78]); (326, [110]); (327, [78]); (328, [110]); (329, [700; 110]); (332, [79]); (333, [111]); (334, [79]); (335, [111]); (336, [79]); (337, [111]); (340, [82]); (341, [114]); (342, [82]); (343, [114]); (344, [82]); (345, [114]); (346, [83]); (347, [115]); (348, [83]); (349, [115]); (350, [83]); (351, [115]); (352, [83]); (353, [115]); (354, [84]); (355, [116]); (356, [84]); (357, [116]); (360, [85]); (361, [117]); (362, [85]); (363, [117]); (364, [85]); (365, [117]); (366, [85]); (367, [117]); (368, [85]); (369, [117]); (370, [85]); (371, [117]); (372, [87]); (373, [119]); (374, [89]); (375, [121]); (376, [89]); (377, [90]); (378, [122]); (379, [90]); (380, [122]); (381, [90]); (382, [122]); (383, [115]); (416, [79]); (417, [111]); (431, [85]); (432, [117]); (452, [68; 90]); (453, [68; 122]); (454, [100; 122]); (455, [76; 74]); (456, [76; 106]); (457, [108; 106]); (458, [78; 74]); (459, [78; 106]); (460, [110; 106]); (461, [65]); (462, [97]); (463, [73]); (464, [105]); (465, [79]); (466, [111]); (467, [85]); (468, [117]); (469, [85]); (470, [117]); (471, [85]); (472, [117]); (473, [85]); (474, [117]); (475, [85]); (476, [117]); (478, [65]); (479, [97]); (480, [65]); (481, [97]); (482, [198]); (483, [230]); (486, [71]); (487, [103]); (488, [75]); (489, [107]); (490, [79]); (491, [111]); (492, [79]); (493, [111]); (494, [439]); (495, [658]); (496, [106]); (497, [68; 90]); (498, [68; 122]); (499, [100; 122]); (500, [71]); (501, [103]); (504, [78]); (505, [110]); (506, [65]); (507, [97]); (508, [198]); (509, [230]); (510, [216]); (511, [248]); (512, [65]); (513, [97]); (514, [65]); (515, [97]); (516, [69]); (517, [101]); (518, [69]); (519, [101]); (520, [73]); (521, [105]); (522, [73]); (523, [105]); (524, [79]); (525, [111]); (526, [79]); (527, [111]); (528, [82]); (529, [114]); (530, [82]); (531, [114]); (532, [85]); (533, [117]); (534, [85]); (535, [117]); (536, [83]); (537, [115]); (538, [84]); (539, [116]); (542, [72]); (543, [104]); (550, [65]); (551, [97]); (552, [69]); (553, [101]); (554, [79]); (555, [111]); (556, [79]); (557, [111]); (558, [79]); (559, [111]); (560, [79]); (561, [111]); (562, [89]); (563, [121])].
Definition lower0 (c : Z) : Z := if c <? 128 then lowerA c else assoc_z c low_tab c.
Definition upper0 (c : Z) : Z := if c <? 128 then upperA c else assoc_z c upp_tab c.
Definition map_runes (f : Z -> list Z) (s : str) : str := if is_ascii s then s else encode (flat_map f (runes s)).
Definition uni0 : uni :=
  {| u_lower := lower0; u_upper := upper0; u_fold := lower0;
     u_isL := fun c => is_alphaA c || in_ranges let_tab c;
     u_isM := fun c => (768 <=? c) && (c <=? 879);
     u_isN := fun c => is_digitA c || in_ranges num_tab c;
     u_isNd := is_digitA;
     u_nfkc := map_runes (fun c => assoc_z [c] nfkc_tab c);
     u_nfkd_noMn_nfkc := map_runes (fun c => if (768 <=? c) && (c <=? 879) then [] else assoc_z [c] nomn_tab c) |}.

(** 2026-11-17T22:17:00Z as the clock, UTC as the local zone *)
Definition env0 : env :=
  {| e_now := {| t_sec := 1794953820; t_nsec := 0; t_loc := utc |}; e_local := utc; e_uni := uni0;
     e_tz := tz_source_order; e_wd_first := true |}.

Lemma uni0_ascii : uni_ascii uni0.
Proof.
  assert (A : forall c, 0 <= c < 128 -> c <? 128 = true) by (intros; apply Z.ltb_lt; lia).
  assert (R : forall l, forallb (fun p => 128 <=? fst p) l = true -> forall c, 0 <= c < 128 -> in_ranges l c = false).
  { intros l Hl c Hc. unfold in_ranges. induction l as [|p l IH]; [reflexivity|].
    cbn [forallb existsb] in *. apply andb_true_iff in Hl as [H1 H2]. apply Z.leb_le in H1.
    rewrite (IH H2). replace (fst p <=? c) with false; [reflexivity|]. symmetry. apply Z.leb_gt. lia. }
  split; cbn [u_lower u_upper u_fold u_isL u_isM u_isN u_isNd u_nfkc u_nfkd_noMn_nfkc uni0].
  - intros. unfold lower0. now rewrite A.
  - intros. unfold upper0. now rewrite A.
  - vm_compute. reflexivity.
  - intros. unfold lower0. now rewrite A.
  - intros c Hc Hx. unfold lower0. replace (c <? 128) with false by (symmetry; apply Z.ltb_ge; lia). unfold assoc_z.
    destruct (List.find _ low_tab) as [p|] eqn:F; [|lia]. apply find_some in F as [Hi Hp]. apply Z.eqb_eq in Hp.
    assert (T : forallb (fun p => (128 <=? snd p) || existsb (Z.eqb (fst p)) [304; 383; 8490]) low_tab = true) by (vm_compute; reflexivity).
    rewrite forallb_forall in T. specialize (T p Hi). rewrite Hp, Hx, orb_false_r in T. now apply Z.leb_le.
  - intros. rewrite R; auto. apply orb_false_r.
  - intros. apply andb_false_iff. left. apply Z.leb_gt. lia.
  - intros. rewrite R; auto. apply orb_false_r.
  - reflexivity.
  - intros s Hs. unfold map_runes. now rewrite Hs.
  - intros s Hs. unfold map_runes. now rewrite Hs.
Qed.
