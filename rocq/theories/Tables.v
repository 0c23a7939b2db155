(* The tables of the generated parser, as lists.

   Each row of actions and go begins in the source with the number of
   entries that follow; here a row is the list of its entries (symbol,
   action code, index).  Rows of the two-dimensional tables that are shorter
   than the declared width are zero-filled in the source; here they keep
   only the written elements, and reading past them counts as leaving the
   table.  The numbers were copied from the source text by a script. *)
From Coq Require Import ZArith List String Ascii.
Import ListNotations.
Open Scope string_scope.
Open Scope Z_scope.

(* Narsese/Parser/narsese.h, actions, lines 254-432 *)
Definition actions : list (list (Z * Z * Z)) :=
  [
   [(58,3,207)];
   [(58,3,207)];
   [(11,2,5)];
   [(0,3,206)];
   [(51,2,13); (49,2,14); (32,2,16); (28,2,17); (16,2,21); (15,2,22); (14,2,23); (6,2,24);
   (3,2,25)];
   [(58,3,207)];
   [(31,2,30)];
   [(54,1,13); (53,1,19); (52,1,28)];
   [(54,1,14); (53,1,20); (52,1,29)];
   [(55,2,32)];
   [(54,2,34)];
   [(53,2,36)];
   [(52,2,38)];
   [(58,3,207)];
   [(58,3,207)];
   [(49,2,14)];
   [(58,3,207)];
   [(58,3,207)];
   [(54,2,34); (51,2,13); (49,2,14); (32,2,16); (28,2,17); (16,2,21); (15,2,22); (14,2,23);
   (11,2,5); (10,2,42); (6,2,24); (3,2,25)];
   [(54,2,34); (51,2,13); (49,2,14); (32,2,16); (28,2,17); (16,2,21); (15,2,22); (14,2,23);
   (11,2,5); (10,2,42); (6,2,24); (3,2,25)];
   [(54,2,34); (51,2,13); (49,2,14); (32,2,16); (28,2,17); (16,2,21); (15,2,22); (14,2,23);
   (11,2,5); (10,2,42); (6,2,24); (3,2,25)];
   [(58,3,207)];
   [(58,3,207)];
   [(58,3,207)];
   [(58,3,207)];
   [(58,3,207)];
   [(54,2,34); (51,2,13); (49,2,14); (32,2,16); (28,2,17); (25,2,57); (24,2,58); (23,2,59);
   (22,2,60); (21,2,61); (20,2,62); (19,2,63); (18,2,64); (17,2,65); (16,2,21); (15,2,22);
   (14,2,23); (13,2,66); (12,2,67); (11,2,5); (10,2,42); (6,2,24); (3,2,25)];
   [(6,2,24); (3,2,25)];
   [(54,2,34); (51,2,13); (49,2,14); (32,2,16); (28,2,17); (16,2,21); (15,2,22); (14,2,23);
   (11,2,5); (10,2,42); (6,2,24); (3,2,25)];
   [(57,2,69)];
   [(58,3,207)];
   [(1,2,70)];
   [(58,3,207)];
   [(9,2,74); (7,2,75); (5,2,76); (4,2,77)];
   [(58,3,207)];
   [(9,2,74); (7,2,75); (5,2,76); (4,2,77)];
   [(58,3,207)];
   [(9,2,74); (7,2,75); (5,2,76); (4,2,77)];
   [(58,3,207)];
   [(9,2,74); (7,2,75); (5,2,76); (4,2,77)];
   [(54,2,34); (51,2,13); (49,2,14); (32,2,16); (28,2,17); (16,2,21); (15,2,22); (14,2,23);
   (11,2,5); (10,2,42); (6,2,24); (3,2,25)];
   [(47,2,81)];
   [(58,3,207)];
   [(6,2,24); (3,2,25)];
   [(6,2,24); (3,2,25)];
   [(6,2,24); (3,2,25)];
   [(47,2,81)];
   [(47,2,81); (46,2,89); (45,2,90); (44,2,91); (43,2,92); (42,2,93); (41,2,94); (40,2,95);
   (39,2,96); (38,2,97); (37,2,98); (36,2,99); (33,2,100); (25,2,57); (24,2,58); (23,2,59);
   (22,2,60); (21,2,61); (20,2,62); (19,2,63)];
   [(47,2,81); (48,1,42)];
   [(54,2,34); (51,2,13); (49,2,14); (47,2,81); (32,2,16); (28,2,17); (16,2,21); (15,2,22);
   (14,2,23); (11,2,5); (10,2,42); (6,2,24); (3,2,25)];
   [(47,2,81)];
   [(47,2,81)];
   [(48,2,123)];
   [(47,2,81)];
   [(47,2,81)];
   [(47,2,81)];
   [(18,2,64); (17,2,65)];
   [(58,3,207)];
   [(58,3,207)];
   [(58,3,207)];
   [(58,3,207)];
   [(58,3,207)];
   [(58,3,207)];
   [(58,3,207)];
   [(58,3,207)];
   [(58,3,207)];
   [(58,3,207)];
   [(58,3,207)];
   [(46,2,89); (45,2,90); (44,2,91); (43,2,92); (42,2,93); (41,2,94); (40,2,95); (39,2,96);
   (38,2,97); (37,2,98); (36,2,99); (33,2,100)];
   [(58,3,207)];
   [(58,3,207)];
   [(11,2,5)];
   [(30,2,129)];
   [(2,2,131)];
   [(58,3,207)];
   [(58,3,207)];
   [(58,3,207)];
   [(58,3,207)];
   [(57,2,69)];
   [(2,2,131)];
   [(47,2,81)];
   [(58,3,207)];
   [(47,2,81)];
   [(27,2,137)];
   [(54,2,34); (51,2,13); (49,2,14); (32,2,16); (28,2,17); (16,2,21); (15,2,22); (14,2,23);
   (11,2,5); (10,2,42); (6,2,24); (3,2,25)];
   [(47,2,81)];
   [(26,2,138)];
   [(54,2,34); (51,2,13); (49,2,14); (32,2,16); (28,2,17); (16,2,21); (15,2,22); (14,2,23);
   (11,2,5); (10,2,42); (6,2,24); (3,2,25)];
   [(54,2,34); (51,2,13); (49,2,14); (32,2,16); (28,2,17); (16,2,21); (15,2,22); (14,2,23);
   (11,2,5); (10,2,42); (6,2,24); (3,2,25)];
   [(58,3,207)];
   [(58,3,207)];
   [(58,3,207)];
   [(58,3,207)];
   [(58,3,207)];
   [(58,3,207)];
   [(58,3,207)];
   [(58,3,207)];
   [(58,3,207)];
   [(58,3,207)];
   [(58,3,207)];
   [(58,3,207)];
   [(48,2,123); (47,2,81)];
   [(25,2,57)];
   [(24,2,58)];
   [(23,2,59)];
   [(22,2,60)];
   [(21,2,61)];
   [(20,2,62)];
   [(19,2,63)];
   [(54,2,34); (51,2,13); (49,2,14); (32,2,16); (28,2,17); (16,2,21); (15,2,22); (14,2,23);
   (11,2,5); (10,2,42); (6,2,24); (3,2,25)];
   [(54,2,34); (51,2,13); (49,2,14); (32,2,16); (28,2,17); (16,2,21); (15,2,22); (14,2,23);
   (11,2,5); (10,2,42); (6,2,24); (3,2,25)];
   [(54,2,34); (51,2,13); (49,2,14); (32,2,16); (28,2,17); (16,2,21); (15,2,22); (14,2,23);
   (11,2,5); (10,2,42); (6,2,24); (3,2,25)];
   [(54,2,34); (51,2,13); (49,2,14); (32,2,16); (28,2,17); (16,2,21); (15,2,22); (14,2,23);
   (11,2,5); (10,2,42); (6,2,24); (3,2,25)];
   [(54,2,34); (51,2,13); (49,2,14); (32,2,16); (28,2,17); (16,2,21); (15,2,22); (14,2,23);
   (11,2,5); (10,2,42); (6,2,24); (3,2,25)];
   [(54,2,34); (51,2,13); (49,2,14); (32,2,16); (28,2,17); (16,2,21); (15,2,22); (14,2,23);
   (11,2,5); (10,2,42); (6,2,24); (3,2,25)];
   [(54,2,34); (51,2,13); (49,2,14); (32,2,16); (28,2,17); (16,2,21); (15,2,22); (14,2,23);
   (11,2,5); (10,2,42); (6,2,24); (3,2,25)];
   [(54,2,34); (51,2,13); (49,2,14); (32,2,16); (28,2,17); (16,2,21); (15,2,22); (14,2,23);
   (11,2,5); (10,2,42); (6,2,24); (3,2,25)];
   [(47,2,81)];
   [(48,2,123)];
   [(54,2,34); (51,2,13); (49,2,14); (32,2,16); (28,2,17); (16,2,21); (15,2,22); (14,2,23);
   (11,2,5); (10,2,42); (6,2,24); (3,2,25)];
   [(54,2,34); (51,2,13); (49,2,14); (32,2,16); (28,2,17); (16,2,21); (15,2,22); (14,2,23);
   (11,2,5); (10,2,42); (6,2,24); (3,2,25)];
   [(54,2,34); (51,2,13); (49,2,14); (32,2,16); (28,2,17); (16,2,21); (15,2,22); (14,2,23);
   (11,2,5); (10,2,42); (6,2,24); (3,2,25)];
   [(54,2,34); (51,2,13); (49,2,14); (32,2,16); (28,2,17); (16,2,21); (15,2,22); (14,2,23);
   (11,2,5); (10,2,42); (6,2,24); (3,2,25)];
   [(58,3,207)];
   [(54,2,34); (51,2,13); (49,2,14); (32,2,16); (28,2,17); (16,2,21); (15,2,22); (14,2,23);
   (11,2,5); (10,2,42); (6,2,24); (3,2,25)];
   [(54,2,34); (51,2,13); (49,2,14); (32,2,16); (28,2,17); (16,2,21); (15,2,22); (14,2,23);
   (11,2,5); (10,2,42); (6,2,24); (3,2,25)];
   [(54,2,34); (51,2,13); (49,2,14); (32,2,16); (28,2,17); (16,2,21); (15,2,22); (14,2,23);
   (11,2,5); (10,2,42); (6,2,24); (3,2,25)];
   [(54,2,34); (51,2,13); (49,2,14); (32,2,16); (28,2,17); (16,2,21); (15,2,22); (14,2,23);
   (11,2,5); (10,2,42); (6,2,24); (3,2,25)];
   [(54,2,34); (51,2,13); (49,2,14); (32,2,16); (28,2,17); (16,2,21); (15,2,22); (14,2,23);
   (11,2,5); (10,2,42); (6,2,24); (3,2,25)];
   [(58,3,207)];
   [(1,2,70)];
   [(58,3,207)];
   [(56,2,151)];
   [(8,2,153)];
   [(47,2,81)];
   [(48,2,123)];
   [(54,2,34); (51,2,13); (49,2,14); (32,2,16); (28,2,17); (16,2,21); (15,2,22); (14,2,23);
   (11,2,5); (10,2,42); (6,2,24); (3,2,25)];
   [(58,3,207)];
   [(58,3,207)];
   [(48,2,123)];
   [(48,2,123)];
   [(47,2,81)];
   [(47,2,81)];
   [(47,2,81)];
   [(47,2,81)];
   [(25,2,57); (24,2,58); (23,2,59); (22,2,60); (21,2,61); (20,2,62); (19,2,63)];
   [(47,2,81)];
   [(25,2,57); (24,2,58); (23,2,59); (22,2,60); (21,2,61); (20,2,62); (19,2,63)];
   [(48,2,123)];
   [(50,2,166)];
   [(29,2,167)];
   [(58,3,207)];
   [(1,2,70)];
   [(58,3,207)];
   [(47,2,81)];
   [(48,2,123)];
   [(54,2,34); (51,2,13); (49,2,14); (32,2,16); (28,2,17); (16,2,21); (15,2,22); (14,2,23);
   (11,2,5); (10,2,42); (6,2,24); (3,2,25)];
   [(47,2,81)];
   [(48,2,123)];
   [(54,2,34); (51,2,13); (49,2,14); (32,2,16); (28,2,17); (16,2,21); (15,2,22); (14,2,23);
   (11,2,5); (10,2,42); (6,2,24); (3,2,25)];
   [(48,2,123); (47,2,81)];
   [(54,2,34); (51,2,13); (49,2,14); (32,2,16); (28,2,17); (16,2,21); (15,2,22); (14,2,23);
   (11,2,5); (10,2,42); (6,2,24); (3,2,25)];
   [(47,2,81)];
   [(48,2,123)];
   [(54,2,34); (51,2,13); (49,2,14); (32,2,16); (28,2,17); (16,2,21); (15,2,22); (14,2,23);
   (11,2,5); (10,2,42); (6,2,24); (3,2,25)];
   [(54,2,34); (51,2,13); (49,2,14); (32,2,16); (28,2,17); (16,2,21); (15,2,22); (14,2,23);
   (11,2,5); (10,2,42); (6,2,24); (3,2,25)];
   [(58,3,207)];
   [(58,3,207)];
   [(2,2,131)];
   [(35,2,172)];
   [(25,2,57); (24,2,58); (23,2,59); (22,2,60); (21,2,61); (20,2,62); (19,2,63)];
   [(48,2,123)];
   [(58,3,207)];
   [(1,2,70)];
   [(34,2,175)];
   [(58,3,207)]
  ].

(* Narsese/Parser/narsese.h, go, lines 435-613 *)
Definition go : list (list (Z * Z * Z)) :=
  [
   [(119,3,209); (118,2,1); (117,2,2)];
   [(119,3,208)];
   [(233,2,3); (232,3,0); (231,3,1); (230,2,4); (120,3,269); (103,2,6)];
   [];
   [(229,3,3); (228,2,7); (227,2,8); (226,2,9); (219,2,10); (216,2,11); (210,2,12); (205,3,36);
   (204,3,67); (200,2,15); (195,3,63); (194,3,65); (193,3,70); (192,3,71); (191,3,72);
   (190,3,73); (189,3,74); (188,3,75); (187,3,76); (186,3,77); (185,3,78); (184,2,18);
   (180,2,19); (176,2,20); (175,3,93); (156,3,121); (121,3,205); (106,2,26); (101,3,203);
   (100,3,204); (99,2,27); (98,2,28); (84,3,178); (71,3,177); (69,3,176); (68,2,29)];
   [(119,3,209); (118,2,1); (117,3,225)];
   [(62,2,31)];
   [];
   [];
   [(116,2,33)];
   [(115,2,35)];
   [(114,2,37)];
   [(113,2,39)];
   [(119,3,209); (118,2,1); (117,3,230)];
   [(119,3,209); (118,2,1); (117,3,222)];
   [(106,2,40)];
   [(119,3,209); (118,2,1); (117,3,229)];
   [(119,3,209); (118,2,1); (117,3,260)];
   [(228,3,62); (227,3,66); (207,2,41); (205,3,36); (204,3,67); (200,2,15); (196,3,61);
   (195,3,63); (194,3,65); (193,3,70); (192,3,71); (191,3,72); (190,3,73); (189,3,74);
   (188,3,75); (187,3,76); (186,3,77); (185,3,78); (184,2,18); (180,2,19); (176,2,20);
   (175,3,93); (156,3,121); (121,3,205); (115,2,43); (106,2,26); (103,2,44); (102,2,45);
   (101,3,203); (100,3,204); (99,2,27); (98,2,28); (84,3,178); (71,3,177); (69,3,176);
   (68,2,29)];
   [(228,3,62); (227,3,66); (207,2,46); (205,3,36); (204,3,67); (200,2,15); (196,3,61);
   (195,3,63); (194,3,65); (193,3,70); (192,3,71); (191,3,72); (190,3,73); (189,3,74);
   (188,3,75); (187,3,76); (186,3,77); (185,3,78); (184,2,18); (180,2,19); (176,2,20);
   (175,3,93); (156,3,121); (121,3,205); (115,2,43); (106,2,26); (103,2,44); (102,2,45);
   (101,3,203); (100,3,204); (99,2,27); (98,2,28); (84,3,178); (71,3,177); (69,3,176);
   (68,2,29)];
   [(228,3,62); (227,3,66); (207,3,91); (205,3,36); (204,3,67); (200,2,15); (196,3,61);
   (195,3,63); (194,3,65); (193,3,70); (192,3,71); (191,3,72); (190,3,73); (189,3,74);
   (188,3,75); (187,3,76); (186,3,77); (185,3,78); (184,2,18); (180,2,19); (176,2,20);
   (175,3,93); (156,3,121); (121,3,205); (115,2,43); (106,2,26); (103,2,44); (102,2,45);
   (101,3,203); (100,3,204); (99,2,27); (98,2,28); (84,3,178); (71,3,177); (69,3,176);
   (68,2,29)];
   [(119,3,209); (118,2,1); (117,3,259)];
   [(119,3,209); (118,2,1); (117,3,257)];
   [(119,3,209); (118,2,1); (117,3,244)];
   [(119,3,209); (118,2,1); (117,3,227)];
   [(119,3,209); (118,2,1); (117,3,228)];
   [(228,3,62); (227,3,66); (207,2,47); (205,3,36); (204,2,48); (200,2,15); (196,3,61);
   (195,3,63); (194,3,65); (193,3,70); (192,3,71); (191,3,72); (190,3,73); (189,3,74);
   (188,3,75); (187,3,76); (186,3,77); (185,3,78); (184,2,18); (180,2,19); (176,2,49);
   (175,3,93); (174,2,50); (170,2,51); (166,2,52); (163,2,53); (160,2,54); (156,3,121);
   (155,2,55); (152,2,56); (150,3,132); (149,3,133); (148,3,134); (147,3,135); (146,3,136);
   (145,3,137); (144,3,138); (121,3,205); (115,2,43); (106,2,26); (103,2,44); (102,2,45);
   (101,3,203); (100,3,204); (99,2,27); (98,2,28); (84,3,178); (83,3,179); (82,3,180);
   (81,3,173); (80,3,168); (79,3,167); (78,3,170); (77,3,169); (76,3,171); (75,3,172);
   (74,3,174); (73,3,175); (71,3,177); (69,3,176); (68,2,29)];
   [(200,3,68); (121,3,205); (101,3,203); (100,3,204)];
   [(228,3,62); (227,3,66); (207,2,68); (205,3,36); (204,3,67); (200,2,15); (196,3,61);
   (195,3,63); (194,3,65); (193,3,70); (192,3,71); (191,3,72); (190,3,73); (189,3,74);
   (188,3,75); (187,3,76); (186,3,77); (185,3,78); (184,2,18); (180,2,19); (176,2,20);
   (175,3,93); (156,3,121); (121,3,205); (115,2,43); (106,2,26); (103,2,44); (102,2,45);
   (101,3,203); (100,3,204); (99,2,27); (98,2,28); (84,3,178); (71,3,177); (69,3,176);
   (68,2,29)];
   [(111,3,69)];
   [(119,3,209); (118,2,1); (117,3,266)];
   [(123,3,201); (122,2,71); (65,2,72)];
   [(119,3,209); (118,2,1); (117,3,212)];
   [(225,3,7); (224,3,8); (223,2,73); (112,2,78); (109,3,185); (108,3,186); (107,3,187)];
   [(119,3,209); (118,2,1); (117,3,213)];
   [(225,3,16); (218,3,17); (217,3,15); (112,2,78); (109,3,185); (108,3,186); (107,3,187)];
   [(119,3,209); (118,2,1); (117,3,214)];
   [(225,3,22); (215,3,23); (214,2,79); (112,2,78); (109,3,185); (108,3,186); (107,3,187)];
   [(119,3,209); (118,2,1); (117,3,215)];
   [(225,3,31); (209,3,32); (208,3,30); (112,2,78); (109,3,185); (108,3,186); (107,3,187)];
   [(228,3,62); (227,3,66); (207,2,80); (205,3,36); (204,3,67); (200,2,15); (196,3,61);
   (195,3,63); (194,3,65); (193,3,70); (192,3,71); (191,3,72); (190,3,73); (189,3,74);
   (188,3,75); (187,3,76); (186,3,77); (185,3,78); (184,2,18); (180,2,19); (176,2,20);
   (175,3,93); (156,3,121); (121,3,205); (115,2,43); (106,2,26); (103,2,44); (102,2,45);
   (101,3,203); (100,3,204); (99,2,27); (98,2,28); (84,3,178); (71,3,177); (69,3,176);
   (68,2,29)];
   [(183,3,82); (182,2,82); (181,2,83); (104,2,84)];
   [(119,3,209); (118,2,1); (117,3,226)];
   [(200,3,183); (121,3,205); (101,3,203); (100,3,204)];
   [(200,3,181); (121,3,205); (101,3,203); (100,3,204)];
   [(200,3,182); (121,3,205); (101,3,203); (100,3,204)];
   [(179,3,88); (178,2,85); (177,2,86); (104,2,87)];
   [(206,2,88); (165,3,110); (164,2,101); (143,3,142); (142,2,102); (141,3,146); (140,2,103);
   (139,3,150); (138,2,104); (137,3,154); (136,2,105); (135,3,158); (134,2,106); (133,3,162);
   (132,2,107); (131,3,166); (130,2,108); (104,2,109); (96,3,49); (95,3,50); (94,3,51);
   (93,3,52); (92,3,53); (91,3,54); (90,3,55); (89,3,56); (88,3,57); (87,3,58); (86,3,59);
   (85,3,60); (81,2,110); (80,2,111); (79,2,112); (78,2,113); (77,2,114); (76,2,115);
   (75,2,116)];
   [(203,3,40); (202,2,117); (201,2,118); (104,2,119)];
   [(228,3,62); (227,3,66); (207,3,91); (205,3,36); (204,3,67); (200,2,15); (196,3,61);
   (195,3,63); (194,3,65); (193,3,70); (192,3,71); (191,3,72); (190,3,73); (189,3,74);
   (188,3,75); (187,3,76); (186,3,77); (185,3,78); (184,2,18); (180,2,19); (176,2,20);
   (175,3,93); (156,3,121); (121,3,205); (115,2,43); (106,2,26); (104,2,120); (103,2,44);
   (102,2,45); (101,3,203); (100,3,204); (99,2,27); (98,2,28); (84,3,178); (71,3,177);
   (69,3,176); (68,2,29)];
   [(104,2,121)];
   [(104,2,122)];
   [(105,3,106)];
   [(104,2,124)];
   [(104,2,125)];
   [(104,2,126)];
   [(155,2,127); (74,3,174); (73,3,175)];
   [(119,3,209); (118,2,1); (117,3,247)];
   [(119,3,209); (118,2,1); (117,3,248)];
   [(119,3,209); (118,2,1); (117,3,249)];
   [(119,3,209); (118,2,1); (117,3,250)];
   [(119,3,209); (118,2,1); (117,3,251)];
   [(119,3,209); (118,2,1); (117,3,252)];
   [(119,3,209); (118,2,1); (117,3,253)];
   [(119,3,209); (118,2,1); (117,3,254)];
   [(119,3,209); (118,2,1); (117,3,255)];
   [(119,3,209); (118,2,1); (117,3,245)];
   [(119,3,209); (118,2,1); (117,3,246)];
   [(206,2,128); (96,3,49); (95,3,50); (94,3,51); (93,3,52); (92,3,53); (91,3,54); (90,3,55);
   (89,3,56); (88,3,57); (87,3,58); (86,3,59); (85,3,60)];
   [(119,3,209); (118,2,1); (117,3,217)];
   [(119,3,209); (118,2,1); (117,3,263)];
   [(103,3,196)];
   [(61,2,130)];
   [(222,3,10); (221,3,11); (220,3,6); (67,2,132)];
   [(119,3,209); (118,2,1); (117,3,216)];
   [(119,3,209); (118,2,1); (117,3,219)];
   [(119,3,209); (118,2,1); (117,3,220)];
   [(119,3,209); (118,2,1); (117,3,221)];
   [(111,2,133)];
   [(222,3,188); (213,3,25); (212,3,26); (211,3,21); (67,2,132)];
   [(199,3,46); (198,2,134); (197,2,135); (104,2,136)];
   [(119,3,209); (118,2,1); (117,3,224)];
   [(183,3,81); (104,2,84)];
   [(70,3,79)];
   [(228,3,62); (227,3,66); (207,3,80); (205,3,36); (204,3,67); (200,2,15); (196,3,61);
   (195,3,63); (194,3,65); (193,3,70); (192,3,71); (191,3,72); (190,3,73); (189,3,74);
   (188,3,75); (187,3,76); (186,3,77); (185,3,78); (184,2,18); (180,2,19); (176,2,20);
   (175,3,93); (156,3,121); (121,3,205); (115,2,43); (106,2,26); (103,2,44); (102,2,45);
   (101,3,203); (100,3,204); (99,2,27); (98,2,28); (84,3,178); (71,3,177); (69,3,176);
   (68,2,29)];
   [(179,3,87); (104,2,87)];
   [(72,3,85)];
   [(228,3,62); (227,3,66); (207,3,86); (205,3,36); (204,3,67); (200,2,15); (196,3,61);
   (195,3,63); (194,3,65); (193,3,70); (192,3,71); (191,3,72); (190,3,73); (189,3,74);
   (188,3,75); (187,3,76); (186,3,77); (185,3,78); (184,2,18); (180,2,19); (176,2,20);
   (175,3,93); (156,3,121); (121,3,205); (115,2,43); (106,2,26); (103,2,44); (102,2,45);
   (101,3,203); (100,3,204); (99,2,27); (98,2,28); (84,3,178); (71,3,177); (69,3,176);
   (68,2,29)];
   [(228,3,62); (227,3,66); (207,2,139); (205,3,36); (204,3,67); (200,2,15); (196,3,61);
   (195,3,63); (194,3,65); (193,3,70); (192,3,71); (191,3,72); (190,3,73); (189,3,74);
   (188,3,75); (187,3,76); (186,3,77); (185,3,78); (184,2,18); (180,2,19); (176,2,20);
   (175,3,93); (156,3,121); (121,3,205); (115,2,43); (106,2,26); (103,2,44); (102,2,45);
   (101,3,203); (100,3,204); (99,2,27); (98,2,28); (84,3,178); (71,3,177); (69,3,176);
   (68,2,29)];
   [(119,3,209); (118,2,1); (117,3,232)];
   [(119,3,209); (118,2,1); (117,3,233)];
   [(119,3,209); (118,2,1); (117,3,234)];
   [(119,3,209); (118,2,1); (117,3,235)];
   [(119,3,209); (118,2,1); (117,3,236)];
   [(119,3,209); (118,2,1); (117,3,237)];
   [(119,3,209); (118,2,1); (117,3,238)];
   [(119,3,209); (118,2,1); (117,3,239)];
   [(119,3,209); (118,2,1); (117,3,240)];
   [(119,3,209); (118,2,1); (117,3,241)];
   [(119,3,209); (118,2,1); (117,3,242)];
   [(119,3,209); (118,2,1); (117,3,243)];
   [(165,3,109); (105,3,107); (104,2,109)];
   [(143,3,141); (81,2,110)];
   [(141,3,145); (80,2,111)];
   [(139,3,149); (79,2,112)];
   [(137,3,153); (78,2,113)];
   [(135,3,157); (77,2,114)];
   [(133,3,161); (76,2,115)];
   [(131,3,165); (75,2,116)];
   [(228,3,62); (227,3,66); (207,3,108); (205,3,36); (204,3,67); (200,2,15); (196,3,61);
   (195,3,63); (194,3,65); (193,3,70); (192,3,71); (191,3,72); (190,3,73); (189,3,74);
   (188,3,75); (187,3,76); (186,3,77); (185,3,78); (184,2,18); (180,2,19); (176,2,20);
   (175,3,93); (156,3,121); (121,3,205); (115,2,43); (106,2,26); (103,2,44); (102,2,45);
   (101,3,203); (100,3,204); (99,2,27); (98,2,28); (84,3,178); (71,3,177); (69,3,176);
   (68,2,29)];
   [(228,3,62); (227,3,66); (207,3,140); (205,3,36); (204,3,67); (200,2,15); (196,3,61);
   (195,3,63); (194,3,65); (193,3,70); (192,3,71); (191,3,72); (190,3,73); (189,3,74);
   (188,3,75); (187,3,76); (186,3,77); (185,3,78); (184,2,18); (180,2,19); (176,2,20);
   (175,3,93); (156,3,121); (121,3,205); (115,2,43); (106,2,26); (103,2,44); (102,2,45);
   (101,3,203); (100,3,204); (99,2,27); (98,2,28); (84,3,178); (71,3,177); (69,3,176);
   (68,2,29)];
   [(228,3,62); (227,3,66); (207,3,144); (205,3,36); (204,3,67); (200,2,15); (196,3,61);
   (195,3,63); (194,3,65); (193,3,70); (192,3,71); (191,3,72); (190,3,73); (189,3,74);
   (188,3,75); (187,3,76); (186,3,77); (185,3,78); (184,2,18); (180,2,19); (176,2,20);
   (175,3,93); (156,3,121); (121,3,205); (115,2,43); (106,2,26); (103,2,44); (102,2,45);
   (101,3,203); (100,3,204); (99,2,27); (98,2,28); (84,3,178); (71,3,177); (69,3,176);
   (68,2,29)];
   [(228,3,62); (227,3,66); (207,3,148); (205,3,36); (204,3,67); (200,2,15); (196,3,61);
   (195,3,63); (194,3,65); (193,3,70); (192,3,71); (191,3,72); (190,3,73); (189,3,74);
   (188,3,75); (187,3,76); (186,3,77); (185,3,78); (184,2,18); (180,2,19); (176,2,20);
   (175,3,93); (156,3,121); (121,3,205); (115,2,43); (106,2,26); (103,2,44); (102,2,45);
   (101,3,203); (100,3,204); (99,2,27); (98,2,28); (84,3,178); (71,3,177); (69,3,176);
   (68,2,29)];
   [(228,3,62); (227,3,66); (207,3,152); (205,3,36); (204,3,67); (200,2,15); (196,3,61);
   (195,3,63); (194,3,65); (193,3,70); (192,3,71); (191,3,72); (190,3,73); (189,3,74);
   (188,3,75); (187,3,76); (186,3,77); (185,3,78); (184,2,18); (180,2,19); (176,2,20);
   (175,3,93); (156,3,121); (121,3,205); (115,2,43); (106,2,26); (103,2,44); (102,2,45);
   (101,3,203); (100,3,204); (99,2,27); (98,2,28); (84,3,178); (71,3,177); (69,3,176);
   (68,2,29)];
   [(228,3,62); (227,3,66); (207,3,156); (205,3,36); (204,3,67); (200,2,15); (196,3,61);
   (195,3,63); (194,3,65); (193,3,70); (192,3,71); (191,3,72); (190,3,73); (189,3,74);
   (188,3,75); (187,3,76); (186,3,77); (185,3,78); (184,2,18); (180,2,19); (176,2,20);
   (175,3,93); (156,3,121); (121,3,205); (115,2,43); (106,2,26); (103,2,44); (102,2,45);
   (101,3,203); (100,3,204); (99,2,27); (98,2,28); (84,3,178); (71,3,177); (69,3,176);
   (68,2,29)];
   [(228,3,62); (227,3,66); (207,3,160); (205,3,36); (204,3,67); (200,2,15); (196,3,61);
   (195,3,63); (194,3,65); (193,3,70); (192,3,71); (191,3,72); (190,3,73); (189,3,74);
   (188,3,75); (187,3,76); (186,3,77); (185,3,78); (184,2,18); (180,2,19); (176,2,20);
   (175,3,93); (156,3,121); (121,3,205); (115,2,43); (106,2,26); (103,2,44); (102,2,45);
   (101,3,203); (100,3,204); (99,2,27); (98,2,28); (84,3,178); (71,3,177); (69,3,176);
   (68,2,29)];
   [(228,3,62); (227,3,66); (207,3,164); (205,3,36); (204,3,67); (200,2,15); (196,3,61);
   (195,3,63); (194,3,65); (193,3,70); (192,3,71); (191,3,72); (190,3,73); (189,3,74);
   (188,3,75); (187,3,76); (186,3,77); (185,3,78); (184,2,18); (180,2,19); (176,2,20);
   (175,3,93); (156,3,121); (121,3,205); (115,2,43); (106,2,26); (103,2,44); (102,2,45);
   (101,3,203); (100,3,204); (99,2,27); (98,2,28); (84,3,178); (71,3,177); (69,3,176);
   (68,2,29)];
   [(203,3,39); (104,2,119)];
   [(105,3,37)];
   [(228,3,62); (227,3,66); (207,3,38); (205,3,36); (204,3,67); (200,2,15); (196,3,61);
   (195,3,63); (194,3,65); (193,3,70); (192,3,71); (191,3,72); (190,3,73); (189,3,74);
   (188,3,75); (187,3,76); (186,3,77); (185,3,78); (184,2,18); (180,2,19); (176,2,20);
   (175,3,93); (156,3,121); (121,3,205); (115,2,43); (106,2,26); (103,2,44); (102,2,45);
   (101,3,203); (100,3,204); (99,2,27); (98,2,28); (84,3,178); (71,3,177); (69,3,176);
   (68,2,29)];
   [(228,3,62); (227,3,66); (207,2,140); (205,3,36); (204,3,67); (200,2,15); (196,3,61);
   (195,3,63); (194,3,65); (193,3,70); (192,3,71); (191,3,72); (190,3,73); (189,3,74);
   (188,3,75); (187,3,76); (186,3,77); (185,3,78); (184,2,18); (180,2,19); (176,2,20);
   (175,3,93); (156,3,121); (121,3,205); (115,2,43); (106,2,26); (103,2,44); (102,2,45);
   (101,3,203); (100,3,204); (99,2,27); (98,2,28); (84,3,178); (71,3,177); (69,3,176);
   (68,2,29)];
   [(228,3,62); (227,3,66); (207,2,141); (205,3,36); (204,3,67); (200,2,15); (196,3,61);
   (195,3,63); (194,3,65); (193,3,70); (192,3,71); (191,3,72); (190,3,73); (189,3,74);
   (188,3,75); (187,3,76); (186,3,77); (185,3,78); (184,2,18); (180,2,19); (176,2,20);
   (175,3,93); (156,3,121); (121,3,205); (115,2,43); (106,2,26); (103,2,44); (102,2,45);
   (101,3,203); (100,3,204); (99,2,27); (98,2,28); (84,3,178); (71,3,177); (69,3,176);
   (68,2,29)];
   [(228,3,62); (227,3,66); (207,2,142); (205,3,36); (204,3,67); (200,2,15); (196,3,61);
   (195,3,63); (194,3,65); (193,3,70); (192,3,71); (191,3,72); (190,3,73); (189,3,74);
   (188,3,75); (187,3,76); (186,3,77); (185,3,78); (184,2,18); (180,2,19); (176,2,20);
   (175,3,93); (156,3,121); (121,3,205); (115,2,43); (106,2,26); (103,2,44); (102,2,45);
   (101,3,203); (100,3,204); (99,2,27); (98,2,28); (84,3,178); (71,3,177); (69,3,176);
   (68,2,29)];
   [(119,3,209); (118,2,1); (117,3,223)];
   [(228,3,62); (227,3,66); (207,2,143); (205,3,36); (204,3,67); (200,2,15); (196,3,61);
   (195,3,63); (194,3,65); (193,3,70); (192,3,71); (191,3,72); (190,3,73); (189,3,74);
   (188,3,75); (187,3,76); (186,3,77); (185,3,78); (184,2,18); (180,2,19); (176,2,20);
   (175,3,93); (156,3,121); (121,3,205); (115,2,43); (106,2,26); (103,2,44); (102,2,45);
   (101,3,203); (100,3,204); (99,2,27); (98,2,28); (84,3,178); (71,3,177); (69,3,176);
   (68,2,29)];
   [(228,3,62); (227,3,66); (207,2,144); (205,3,36); (204,3,67); (200,2,15); (196,3,61);
   (195,3,63); (194,3,65); (193,3,70); (192,3,71); (191,3,72); (190,3,73); (189,3,74);
   (188,3,75); (187,3,76); (186,3,77); (185,3,78); (184,2,18); (180,2,19); (176,2,20);
   (175,3,93); (156,3,121); (121,3,205); (115,2,43); (106,2,26); (103,2,44); (102,2,45);
   (101,3,203); (100,3,204); (99,2,27); (98,2,28); (84,3,178); (71,3,177); (69,3,176);
   (68,2,29)];
   [(228,3,62); (227,3,66); (207,2,145); (205,3,36); (204,3,67); (200,2,15); (196,3,61);
   (195,3,63); (194,3,65); (193,3,70); (192,3,71); (191,3,72); (190,3,73); (189,3,74);
   (188,3,75); (187,3,76); (186,3,77); (185,3,78); (184,2,18); (180,2,19); (176,2,20);
   (175,3,93); (166,3,124); (156,3,121); (154,2,146); (150,3,132); (149,3,133); (148,3,134);
   (147,3,135); (146,3,136); (145,3,137); (144,3,138); (121,3,205); (115,2,43); (106,2,26);
   (103,2,44); (102,2,45); (101,3,203); (100,3,204); (99,2,27); (98,2,28); (84,3,178);
   (71,3,177); (69,3,176); (68,2,29)];
   [(228,3,62); (227,3,66); (207,2,147); (205,3,36); (204,3,67); (200,2,15); (196,3,61);
   (195,3,63); (194,3,65); (193,3,70); (192,3,71); (191,3,72); (190,3,73); (189,3,74);
   (188,3,75); (187,3,76); (186,3,77); (185,3,78); (184,2,18); (180,2,19); (176,2,20);
   (175,3,93); (166,3,131); (156,3,121); (151,2,148); (150,3,132); (149,3,133); (148,3,134);
   (147,3,135); (146,3,136); (145,3,137); (144,3,138); (121,3,205); (115,2,43); (106,2,26);
   (103,2,44); (102,2,45); (101,3,203); (100,3,204); (99,2,27); (98,2,28); (84,3,178);
   (71,3,177); (69,3,176); (68,2,29)];
   [(228,3,62); (227,3,66); (207,2,149); (205,3,36); (204,3,67); (200,2,15); (196,3,61);
   (195,3,63); (194,3,65); (193,3,70); (192,3,71); (191,3,72); (190,3,73); (189,3,74);
   (188,3,75); (187,3,76); (186,3,77); (185,3,78); (184,2,18); (180,2,19); (176,2,20);
   (175,3,93); (156,3,121); (121,3,205); (115,2,43); (106,2,26); (103,2,44); (102,2,45);
   (101,3,203); (100,3,204); (99,2,27); (98,2,28); (84,3,178); (71,3,177); (69,3,176);
   (68,2,29)];
   [(119,3,209); (118,2,1); (117,3,267)];
   [(125,3,199); (124,3,197); (65,2,150)];
   [(119,3,209); (118,2,1); (117,3,261)];
   [(66,2,152)];
   [(110,3,184)];
   [(199,3,45); (104,2,136)];
   [(105,3,43)];
   [(228,3,62); (227,3,66); (207,3,44); (205,3,36); (204,3,67); (200,2,15); (196,3,61);
   (195,3,63); (194,3,65); (193,3,70); (192,3,71); (191,3,72); (190,3,73); (189,3,74);
   (188,3,75); (187,3,76); (186,3,77); (185,3,78); (184,2,18); (180,2,19); (176,2,20);
   (175,3,93); (156,3,121); (121,3,205); (115,2,43); (106,2,26); (103,2,44); (102,2,45);
   (101,3,203); (100,3,204); (99,2,27); (98,2,28); (84,3,178); (71,3,177); (69,3,176);
   (68,2,29)];
   [(119,3,209); (118,2,1); (117,3,258)];
   [(119,3,209); (118,2,1); (117,3,256)];
   [(105,3,35)];
   [(105,3,92)];
   [(173,3,97); (172,2,154); (171,2,155); (104,2,156)];
   [(169,3,103); (168,2,157); (167,2,158); (104,2,159)];
   [(162,3,114); (161,2,160); (104,2,161)];
   [(159,3,118); (158,2,162); (157,2,163); (104,2,164)];
   [(143,3,142); (142,2,102); (141,3,146); (140,2,103); (139,3,150); (138,2,104); (137,3,154);
   (136,2,105); (135,3,158); (134,2,106); (133,3,162); (132,2,107); (131,3,166); (130,2,108);
   (81,2,110); (80,2,111); (79,2,112); (78,2,113); (77,2,114); (76,2,115); (75,2,116)];
   [(104,2,165)];
   [(143,3,142); (142,2,102); (141,3,146); (140,2,103); (139,3,150); (138,2,104); (137,3,154);
   (136,2,105); (135,3,158); (134,2,106); (133,3,162); (132,2,107); (131,3,166); (130,2,108);
   (81,2,110); (80,2,111); (79,2,112); (78,2,113); (77,2,114); (76,2,115); (75,2,116)];
   [(105,3,127)];
   [(97,3,34)];
   [(60,3,198)];
   [(119,3,209); (118,2,1); (117,3,262)];
   [(127,3,194); (126,2,168); (65,2,169)];
   [(119,3,209); (118,2,1); (117,3,218)];
   [(173,3,96); (104,2,156)];
   [(105,3,94)];
   [(228,3,62); (227,3,66); (207,3,95); (205,3,36); (204,3,67); (200,2,15); (196,3,61);
   (195,3,63); (194,3,65); (193,3,70); (192,3,71); (191,3,72); (190,3,73); (189,3,74);
   (188,3,75); (187,3,76); (186,3,77); (185,3,78); (184,2,18); (180,2,19); (176,2,20);
   (175,3,93); (156,3,121); (121,3,205); (115,2,43); (106,2,26); (103,2,44); (102,2,45);
   (101,3,203); (100,3,204); (99,2,27); (98,2,28); (84,3,178); (71,3,177); (69,3,176);
   (68,2,29)];
   [(169,3,102); (104,2,159)];
   [(105,3,100)];
   [(228,3,62); (227,3,66); (207,3,101); (205,3,36); (204,3,67); (200,2,15); (196,3,61);
   (195,3,63); (194,3,65); (193,3,70); (192,3,71); (191,3,72); (190,3,73); (189,3,74);
   (188,3,75); (187,3,76); (186,3,77); (185,3,78); (184,2,18); (180,2,19); (176,2,20);
   (175,3,93); (156,3,121); (121,3,205); (115,2,43); (106,2,26); (103,2,44); (102,2,45);
   (101,3,203); (100,3,204); (99,2,27); (98,2,28); (84,3,178); (71,3,177); (69,3,176);
   (68,2,29)];
   [(162,3,113); (105,3,111); (104,2,161)];
   [(228,3,62); (227,3,66); (207,3,112); (205,3,36); (204,3,67); (200,2,15); (196,3,61);
   (195,3,63); (194,3,65); (193,3,70); (192,3,71); (191,3,72); (190,3,73); (189,3,74);
   (188,3,75); (187,3,76); (186,3,77); (185,3,78); (184,2,18); (180,2,19); (176,2,20);
   (175,3,93); (156,3,121); (121,3,205); (115,2,43); (106,2,26); (103,2,44); (102,2,45);
   (101,3,203); (100,3,204); (99,2,27); (98,2,28); (84,3,178); (71,3,177); (69,3,176);
   (68,2,29)];
   [(159,3,117); (104,2,164)];
   [(105,3,115)];
   [(228,3,62); (227,3,66); (207,3,116); (205,3,36); (204,3,67); (200,2,15); (196,3,61);
   (195,3,63); (194,3,65); (193,3,70); (192,3,71); (191,3,72); (190,3,73); (189,3,74);
   (188,3,75); (187,3,76); (186,3,77); (185,3,78); (184,2,18); (180,2,19); (176,2,20);
   (175,3,93); (156,3,121); (121,3,205); (115,2,43); (106,2,26); (103,2,44); (102,2,45);
   (101,3,203); (100,3,204); (99,2,27); (98,2,28); (84,3,178); (71,3,177); (69,3,176);
   (68,2,29)];
   [(228,3,62); (227,3,66); (207,2,170); (205,3,36); (204,3,67); (200,2,15); (196,3,61);
   (195,3,63); (194,3,65); (193,3,70); (192,3,71); (191,3,72); (190,3,73); (189,3,74);
   (188,3,75); (187,3,76); (186,3,77); (185,3,78); (184,2,18); (180,2,19); (176,2,20);
   (175,3,93); (166,3,126); (156,3,121); (153,2,171); (150,3,132); (149,3,133); (148,3,134);
   (147,3,135); (146,3,136); (145,3,137); (144,3,138); (121,3,205); (115,2,43); (106,2,26);
   (103,2,44); (102,2,45); (101,3,203); (100,3,204); (99,2,27); (98,2,28); (84,3,178);
   (71,3,177); (69,3,176); (68,2,29)];
   [(119,3,209); (118,2,1); (117,3,231)];
   [(119,3,209); (118,2,1); (117,3,268)];
   [(67,3,189)];
   [(64,2,173)];
   [(143,3,142); (142,2,102); (141,3,146); (140,2,103); (139,3,150); (138,2,104); (137,3,154);
   (136,2,105); (135,3,158); (134,2,106); (133,3,162); (132,2,107); (131,3,166); (130,2,108);
   (81,2,110); (80,2,111); (79,2,112); (78,2,113); (77,2,114); (76,2,115); (75,2,116)];
   [(105,3,122)];
   [(119,3,209); (118,2,1); (117,3,264)];
   [(129,3,192); (128,3,190); (65,2,174)];
   [(63,3,191)];
   [(119,3,209); (118,2,1); (117,3,265)]
  ].

(* Narsese/Parser/narsese.h, def_prod, lines 616-620 *)
Definition def_prod : list Z :=
   [211; 210; 2; -1; -1; 211; -1; 4; 5; -1; -1; -1; -1; 211; 211; 64; 211; 211; -1; -1; -1; 211;
   211; 211; 211; 211; -1; -1; -1; -1; 211; 202; 211; 9; 211; 18; 211; 24; 211; 33; -1; 84; 211;
   -1; -1; -1; 90; 128; 67; -1; -1; -1; 129; -1; -1; -1; -1; 211; 211; 211; 211; 211; 211; 211;
   211; 211; 211; 211; -1; 211; 211; -1; -1; 12; 211; 211; 211; 211; -1; 27; 48; 211; 83; -1;
   -1; 89; -1; -1; -1; 211; 211; 211; 211; 211; 211; 211; 211; 211; 211; 211; 211; -1; 139; 143;
   147; 151; 155; 159; 163; -1; -1; -1; -1; -1; -1; -1; -1; 41; -1; -1; -1; -1; -1; 211; -1; -1;
   -1; -1; -1; 211; 200; 211; -1; -1; 47; -1; -1; 211; 211; -1; -1; 99; 105; -1; 120; 123; -1;
   130; -1; -1; -1; 211; 195; 211; 98; -1; -1; 104; -1; -1; -1; -1; 119; -1; -1; -1; 211; 211;
   -1; -1; 125; -1; 211; 193; -1; 211].

(* Narsese/Parser/narsese.h, dfa_select, lines 623-627 *)
Definition dfa_select : list Z :=
   [0; 1; 2; -1; 3; 4; 5; 6; 6; 7; 8; 9; 10; 11; 12; 13; 14; 15; 16; 16; 16; 11; 11; 17; 18; 18;
   19; 20; 16; 21; 22; 23; 24; 25; 26; 27; 24; 25; 28; 27; 16; 29; 14; 20; 20; 20; 30; 31; 32;
   33; 34; 34; 35; 34; 34; 34; 36; 37; 37; 37; 37; 37; 37; 37; 37; 37; 38; 38; 39; 40; 41; 42;
   43; 44; 15; 45; 45; 45; 21; 44; 46; 11; 29; 47; 16; 30; 48; 16; 16; 11; 11; 11; 11; 11; 11;
   11; 11; 11; 11; 11; 11; 46; 49; 50; 51; 52; 53; 54; 55; 16; 16; 16; 16; 16; 16; 16; 16; 46;
   56; 16; 16; 16; 16; 57; 16; 16; 16; 16; 16; 22; 23; 58; 59; 60; 46; 56; 16; 57; 57; 56; 56;
   46; 46; 34; 46; 61; 34; 62; 56; 63; 64; 65; 66; 45; 46; 56; 16; 46; 56; 16; 46; 16; 46; 56;
   16; 16; 57; 67; 44; 68; 62; 56; 65; 66; 69; 45].

(* Narsese/Parser/narsese.h, dfa_idx, lines 631-703 *)
Definition dfa_idx : list (list Z) :=
  [
   [0; 38; 40; 42; 44; 46; 48; 50; 52; 66; 68; 70; 72; 82; 86; 98; 104];
   [114; 196; 198; 200; 202; 204; 206; 208; 210; 212; 214; 216; 220; 228; 230; 232; 234; 236;
   238; 240; 244; 254; 256; 258; 260; 270; 272; 278; 296; 302; 304; 306; 308; 310; 312; 314;
   316; 320; 326; 330; 332; 334; 336; 338; 340; 342; 344; 346; 348; 350; 352; 354; 356; 358;
   360; 370; 386; 392; 402; 418; 422; 434; 448; 454; 468; 472; 488; 492; 496; 500; 504; 508;
   512; 516; 520; 524; 528; 534; 540; 550];
   [556; 588; 590; 592; 594; 596; 598; 600; 614; 616; 618; 620; 624; 634; 646; 652];
   [662; 692; 694; 696; 698; 712; 714; 716; 718; 720; 722; 726; 736; 748; 754];
   [764; 806; 808; 810; 812; 814; 816; 818; 834; 836; 838; 840; 844; 854; 870; 874; 878; 892;
   896; 908; 914];
   [924; 932; 936; 940; 944; 948];
   [952; 962; 964; 966; 968];
   [970; 974];
   [976; 980];
   [982; 986];
   [988; 992];
   [994; 1036; 1038; 1040; 1042; 1044; 1046; 1048; 1050; 1052; 1054; 1068; 1070; 1072; 1074;
   1084; 1088; 1100; 1106];
   [1116; 1170; 1172; 1174; 1176; 1178; 1180; 1182; 1184; 1186; 1188; 1192; 1194; 1196; 1198;
   1202; 1210; 1212; 1226; 1228; 1230; 1232; 1234; 1236; 1238; 1240; 1250; 1262; 1268];
   [1278; 1316; 1318; 1320; 1322; 1324; 1326; 1328; 1332; 1334; 1338; 1340; 1342; 1344; 1346;
   1354; 1356; 1358; 1360; 1362; 1364; 1366; 1368; 1370; 1372; 1374; 1376; 1378; 1380; 1382;
   1384; 1386; 1388; 1392; 1402; 1412; 1418; 1422; 1426; 1430; 1434; 1438; 1442; 1446; 1450];
   [1456; 1478; 1492; 1494; 1496; 1506; 1518; 1524];
   [1534; 1544; 1548; 1550];
   [1554; 1590; 1592; 1594; 1596; 1610; 1612; 1614; 1616; 1618; 1620; 1622; 1624; 1626; 1630;
   1640; 1652; 1658];
   [1668; 1712; 1714; 1716; 1718; 1720; 1722; 1724; 1726; 1728; 1730; 1732; 1746; 1748; 1750;
   1752; 1762; 1766; 1778; 1784];
   [1794; 1836; 1838; 1840; 1842; 1844; 1846; 1848; 1850; 1852; 1856; 1858; 1862; 1870; 1872;
   1874; 1876; 1878; 1880; 1882; 1884; 1886; 1888; 1890; 1892; 1894; 1896; 1898; 1900; 1902;
   1904; 1906; 1908; 1910; 1914; 1924; 1934; 1940; 1944; 1948; 1952; 1956; 1960; 1964; 1968;
   1972];
   [1978; 2026; 2028; 2032; 2034; 2036; 2038; 2040; 2054; 2056; 2058; 2060; 2064; 2066; 2068;
   2070; 2078; 2080; 2082; 2084; 2086; 2088; 2090; 2092; 2094; 2104; 2116; 2122];
   [2132; 2148; 2162; 2164; 2174; 2186; 2192];
   [2202; 2208; 2212];
   [2216; 2226; 2228; 2230];
   [2232; 2238; 2240];
   [2242; 2252; 2254; 2256; 2258; 2260; 2262; 2264; 2274; 2278; 2282];
   [2286; 2292; 2294; 2296; 2298; 2300; 2302; 2312; 2316; 2320];
   [2324; 2348; 2362; 2364; 2366; 2368; 2370; 2372; 2374; 2384; 2394; 2398; 2402; 2406; 2418;
   2424];
   [2434; 2438; 2440; 2442; 2444; 2446; 2456; 2460; 2464];
   [2468; 2476; 2478; 2480; 2482; 2484; 2486; 2496; 2500; 2504];
   [2508; 2514; 2516];
   [2518; 2524; 2526];
   [2528; 2548; 2552; 2556; 2558; 2560; 2562; 2570; 2572; 2574; 2576; 2578; 2580; 2582; 2584;
   2586; 2588; 2590; 2592; 2594; 2596; 2598; 2600; 2602; 2606; 2616; 2626; 2632; 2636; 2640;
   2644; 2648; 2652; 2656; 2660; 2664];
   [2670; 2692; 2696; 2698; 2702; 2704; 2706; 2708; 2716; 2718; 2720; 2722; 2724; 2726; 2728;
   2730; 2732; 2734; 2736; 2738; 2740; 2742; 2744; 2746; 2748; 2752; 2762; 2772; 2778; 2782;
   2786; 2790; 2794; 2798; 2802; 2806; 2810];
   [2816; 2854; 2856; 2858; 2860; 2874; 2876; 2878; 2880; 2882; 2884; 2886; 2888; 2890; 2892;
   2896; 2906; 2918; 2924];
   [2934; 2938];
   [2940; 2948; 2950; 2952];
   [2954; 2960; 2962];
   [2964; 3008; 3010; 3012; 3014; 3016; 3018; 3020; 3022; 3024; 3026; 3028; 3042; 3044; 3046;
   3048; 3058; 3062; 3074; 3080];
   [3090; 3098; 3100];
   [3102; 3112; 3114; 3116; 3118; 3120; 3122; 3124; 3126; 3128; 3130; 3132; 3134; 3136; 3140;
   3150; 3160; 3166; 3170; 3174; 3178; 3182; 3186; 3190; 3194; 3198; 3204];
   [3208; 3250; 3252; 3254; 3256; 3258; 3260; 3262; 3264; 3268; 3270; 3274; 3282; 3284; 3286;
   3288; 3290; 3292; 3294; 3296; 3298; 3300; 3302; 3304; 3306; 3308; 3310; 3312; 3314; 3316;
   3318; 3320; 3322; 3324; 3328; 3338; 3348; 3354; 3358; 3362; 3366; 3370; 3374; 3378; 3382;
   3386];
   [3392; 3406; 3414; 3420; 3422; 3428; 3432; 3436; 3440; 3446; 3450];
   [3456; 3460];
   [3462; 3468; 3474; 3478; 3482];
   [3488; 3492];
   [3494; 3502; 3504];
   [3506; 3512; 3514];
   [3516; 3520];
   [3522; 3526];
   [3528; 3540; 3542; 3544; 3546; 3548];
   [3550; 3562; 3564; 3566; 3568; 3570; 3572];
   [3576; 3588; 3590; 3592; 3594; 3596; 3598];
   [3602; 3614; 3616; 3618; 3620; 3622; 3624];
   [3628; 3640; 3642; 3644; 3646; 3648; 3650];
   [3654; 3666; 3668; 3670; 3672; 3674];
   [3676; 3688; 3690; 3692; 3694; 3696];
   [3698; 3702];
   [3704; 3744; 3746; 3748; 3750; 3752; 3754; 3756; 3758; 3762; 3764; 3768; 3776; 3778; 3780;
   3782; 3784; 3786; 3788; 3790; 3792; 3794; 3796; 3798; 3800; 3802; 3804; 3806; 3808; 3810;
   3812; 3814; 3816; 3820; 3830; 3840; 3846; 3850; 3854; 3858; 3862; 3866; 3870; 3874; 3878];
   [3884; 3896; 3900; 3902; 3906; 3910; 3914];
   [3918; 3926; 3930; 3934; 3938; 3942];
   [3946; 3950];
   [3952; 3962; 3966; 3968; 3970; 3978; 3980; 3982; 3984];
   [3986; 3996; 4000; 4002; 4004; 4012; 4014; 4016; 4018];
   [4020; 4024];
   [4026; 4034; 4038; 4042; 4046; 4050];
   [4054; 4064; 4066; 4068];
   [4070; 4076; 4078];
   [4080; 4088; 4090];
   [4092; 4098; 4104; 4108; 4112];
   [4118; 4122; 4128]
  ].

(* Narsese/Parser/narsese.h, dfa_chars, lines 706-709 *)
Definition dfa_chars : list Z :=
   [94; 94; 91; 91; 123; 123; 0; 8; 10; 31; 39; 39; 48; 57; 65; 90; 95; 122; 127; 65535; 60; 60;
   45; 45; 43; 43; 40; 40; 36; 36; 34; 34; 32; 32; 9; 9; -1; -1; -1; -1; -1; -1; -1; -1; -1; -1;
   -1; -1; -1; -1; -1; -1; 0; 31; 39; 39; 48; 57; 65; 90; 95; 122; 127; 65535; -1; -1; -1; -1;
   -1; -1; -1; -1; 34; 34; 0; 33; 35; 91; 93; 65535; -1; -1; 45; 45; -1; -1; 0; 33; 35; 91; 93;
   65535; 92; 92; 34; 34; -1; -1; 34; 34; 92; 92; -1; -1; 0; 33; 35; 91; 93; 65535; 34; 34; -1;
   -1; 126; 126; 124; 124; 125; 125; 123; 123; 0; 8; 10; 31; 39; 39; 65; 90; 95; 122; 127;
   65535; 94; 94; 93; 93; 92; 92; 91; 91; 64; 64; 63; 63; 62; 62; 61; 61; 60; 60; 59; 59; 58;
   58; 50; 57; 49; 49; 48; 48; 47; 47; 46; 46; 45; 45; 44; 44; 43; 43; 42; 42; 41; 41; 40; 40;
   38; 38; 37; 37; 36; 36; 35; 35; 34; 34; 33; 33; 32; 32; 9; 9; -1; -1; -1; -1; -1; -1; -1; -1;
   -1; -1; -1; -1; -1; -1; -1; -1; -1; -1; -1; -1; -1; -1; 124; 124; -1; -1; 124; 124; 47; 47;
   38; 38; -1; -1; -1; -1; -1; -1; -1; -1; -1; -1; -1; -1; -1; -1; 45; 45; -1; -1; 124; 124; 61;
   61; 47; 47; 45; 45; -1; -1; -1; -1; -1; -1; -1; -1; 124; 124; 92; 92; 47; 47; 33; 33; -1; -1;
   -1; -1; 48; 57; 45; 45; -1; -1; 49; 57; 0; 31; 39; 39; 65; 90; 95; 122; 127; 65535; 48; 48;
   46; 46; -1; -1; 49; 57; 48; 48; -1; -1; -1; -1; -1; -1; -1; -1; -1; -1; -1; -1; -1; -1; -1;
   -1; 48; 57; -1; -1; 93; 93; 62; 62; -1; -1; 48; 48; -1; -1; -1; -1; -1; -1; -1; -1; -1; -1;
   -1; -1; -1; -1; -1; -1; -1; -1; -1; -1; -1; -1; -1; -1; -1; -1; -1; -1; -1; -1; -1; -1; 34;
   34; 0; 33; 35; 91; 93; 65535; -1; -1; 0; 31; 39; 39; 65; 90; 95; 122; 127; 65535; 48; 57; 46;
   46; -1; -1; 49; 57; 48; 48; -1; -1; 124; 124; 92; 92; 61; 61; 47; 47; -1; -1; 0; 31; 39; 39;
   65; 90; 95; 122; 127; 65535; 49; 57; 48; 48; -1; -1; 48; 57; -1; -1; 0; 33; 35; 91; 93;
   65535; 92; 92; 34; 34; -1; -1; 0; 31; 39; 39; 48; 57; 65; 90; 95; 122; 127; 65535; -1; -1;
   93; 93; 45; 45; -1; -1; 0; 31; 39; 39; 65; 90; 95; 122; 127; 65535; 48; 57; -1; -1; 62; 62;
   -1; -1; 0; 31; 39; 39; 65; 90; 95; 122; 127; 65535; 49; 57; 48; 48; -1; -1; 62; 62; -1; -1;
   62; 62; -1; -1; 62; 62; -1; -1; 62; 62; -1; -1; 62; 62; -1; -1; 62; 62; -1; -1; 62; 62; -1;
   -1; 58; 58; -1; -1; 58; 58; -1; -1; 58; 58; -1; -1; 49; 57; 48; 48; -1; -1; 34; 34; 92; 92;
   -1; -1; 0; 33; 35; 91; 93; 65535; 34; 34; -1; -1; 49; 57; 48; 48; -1; -1; 94; 94; 91; 91;
   123; 123; 0; 31; 39; 39; 48; 57; 65; 90; 95; 122; 127; 65535; 60; 60; 45; 45; 43; 43; 40; 40;
   36; 36; 34; 34; -1; -1; -1; -1; -1; -1; -1; -1; -1; -1; -1; -1; -1; -1; 0; 31; 39; 39; 48;
   57; 65; 90; 95; 122; 127; 65535; -1; -1; -1; -1; -1; -1; -1; -1; 45; 45; -1; -1; 34; 34; 0;
   33; 35; 91; 93; 65535; -1; -1; 0; 33; 35; 91; 93; 65535; 92; 92; 34; 34; -1; -1; 34; 34; 92;
   92; -1; -1; 0; 33; 35; 91; 93; 65535; 34; 34; -1; -1; 0; 31; 39; 39; 48; 57; 65; 90; 95; 122;
   127; 65535; 123; 123; 94; 94; 91; 91; 60; 60; 45; 45; 43; 43; 40; 40; 34; 34; -1; -1; -1; -1;
   -1; -1; -1; -1; 0; 31; 39; 39; 48; 57; 65; 90; 95; 122; 127; 65535; -1; -1; -1; -1; -1; -1;
   -1; -1; -1; -1; -1; -1; 45; 45; -1; -1; 34; 34; 0; 33; 35; 91; 93; 65535; -1; -1; 0; 33; 35;
   91; 93; 65535; 92; 92; 34; 34; -1; -1; 34; 34; 92; 92; -1; -1; 0; 33; 35; 91; 93; 65535; 34;
   34; -1; -1; 60; 60; 94; 94; 91; 91; 123; 123; 45; 45; 48; 48; 49; 49; 46; 46; 0; 8; 10; 31;
   39; 39; 50; 57; 65; 90; 95; 122; 127; 65535; 43; 43; 40; 40; 34; 34; 32; 32; 9; 9; -1; -1;
   -1; -1; -1; -1; -1; -1; -1; -1; -1; -1; -1; -1; 0; 31; 39; 39; 48; 57; 65; 90; 95; 122; 127;
   65535; 46; 46; -1; -1; -1; -1; -1; -1; -1; -1; 48; 48; -1; -1; 34; 34; 0; 33; 35; 91; 93;
   65535; -1; -1; 0; 31; 39; 39; 48; 57; 65; 90; 95; 122; 127; 65535; 46; 46; -1; -1; 48; 57;
   -1; -1; 45; 45; -1; -1; 0; 31; 39; 39; 48; 57; 65; 90; 95; 122; 127; 65535; -1; -1; 48; 57;
   -1; -1; 0; 33; 35; 91; 93; 65535; 92; 92; 34; 34; -1; -1; 34; 34; 92; 92; -1; -1; 0; 33; 35;
   91; 93; 65535; 34; 34; -1; -1; 49; 49; 48; 48; 46; 46; -1; -1; 46; 46; -1; -1; 48; 57; -1;
   -1; 46; 46; -1; -1; 48; 48; -1; -1; 48; 57; -1; -1; 64; 64; 63; 63; 46; 46; 33; 33; -1; -1;
   -1; -1; -1; -1; -1; -1; -1; -1; 46; 46; -1; -1; -1; -1; 63; 63; -1; -1; -1; -1; 33; 33; -1;
   -1; -1; -1; 64; 64; -1; -1; -1; -1; 94; 94; 91; 91; 123; 123; 0; 8; 10; 31; 39; 39; 48; 57;
   65; 90; 95; 122; 127; 65535; 63; 63; 60; 60; 45; 45; 43; 43; 40; 40; 36; 36; 35; 35; 34; 34;
   32; 32; 9; 9; -1; -1; -1; -1; -1; -1; -1; -1; -1; -1; -1; -1; -1; -1; -1; -1; -1; -1; -1; -1;
   0; 31; 39; 39; 48; 57; 65; 90; 95; 122; 127; 65535; -1; -1; -1; -1; -1; -1; -1; -1; 34; 34;
   0; 33; 35; 91; 93; 65535; -1; -1; 45; 45; -1; -1; 0; 33; 35; 91; 93; 65535; 92; 92; 34; 34;
   -1; -1; 34; 34; 92; 92; -1; -1; 0; 33; 35; 91; 93; 65535; 34; 34; -1; -1; 126; 126; 124; 124;
   0; 8; 10; 31; 39; 39; 48; 57; 65; 90; 95; 122; 127; 65535; 123; 123; 94; 94; 92; 92; 91; 91;
   63; 63; 60; 60; 47; 47; 45; 45; 43; 43; 42; 42; 40; 40; 38; 38; 36; 36; 35; 35; 34; 34; 32;
   32; 9; 9; -1; -1; -1; -1; -1; -1; -1; -1; -1; -1; -1; -1; -1; -1; -1; -1; -1; -1; -1; -1; 45;
   45; -1; -1; -1; -1; -1; -1; -1; -1; 124; 124; -1; -1; 124; 124; 47; 47; 38; 38; -1; -1; -1;
   -1; 0; 31; 39; 39; 48; 57; 65; 90; 95; 122; 127; 65535; -1; -1; -1; -1; -1; -1; -1; -1; -1;
   -1; -1; -1; -1; -1; -1; -1; 34; 34; 0; 33; 35; 91; 93; 65535; -1; -1; 0; 33; 35; 91; 93;
   65535; 92; 92; 34; 34; -1; -1; 34; 34; 92; 92; -1; -1; 0; 33; 35; 91; 93; 65535; 34; 34; -1;
   -1; 64; 64; 93; 93; 125; 125; 123; 123; 126; 126; 124; 124; 63; 63; 62; 62; 61; 61; 60; 60;
   46; 46; 45; 45; 44; 44; 42; 42; 41; 41; 40; 40; 38; 38; 33; 33; -1; -1; -1; -1; -1; -1; -1;
   -1; -1; -1; -1; -1; -1; -1; 45; 45; -1; -1; -1; -1; 124; 124; -1; -1; -1; -1; -1; -1; -1; -1;
   -1; -1; 124; 124; 47; 47; 38; 38; -1; -1; -1; -1; -1; -1; -1; -1; -1; -1; -1; -1; -1; -1; -1;
   -1; -1; -1; -1; -1; -1; -1; -1; -1; -1; -1; -1; -1; -1; -1; -1; -1; -1; -1; -1; -1; 45; 45;
   -1; -1; 124; 124; 92; 92; 61; 61; 47; 47; -1; -1; 124; 124; 61; 61; 47; 47; 45; 45; -1; -1;
   93; 93; 45; 45; -1; -1; 62; 62; -1; -1; 62; 62; -1; -1; 62; 62; -1; -1; 62; 62; -1; -1; 62;
   62; -1; -1; 62; 62; -1; -1; 62; 62; -1; -1; 62; 62; -1; -1; 93; 93; 62; 62; -1; -1; 34; 34;
   32; 32; 9; 9; 0; 8; 10; 31; 39; 39; 48; 57; 65; 90; 95; 122; 127; 65535; -1; -1; 0; 31; 39;
   39; 48; 57; 65; 90; 95; 122; 127; 65535; -1; -1; -1; -1; -1; -1; 34; 34; 0; 33; 35; 91; 93;
   65535; -1; -1; 0; 33; 35; 91; 93; 65535; 92; 92; 34; 34; -1; -1; 34; 34; 92; 92; -1; -1; 0;
   33; 35; 91; 93; 65535; 34; 34; -1; -1; 9; 9; 32; 32; 48; 57; 45; 45; -1; -1; 48; 57; -1; -1;
   -1; -1; 48; 57; -1; -1; 0; 31; 39; 39; 48; 57; 65; 90; 95; 122; 127; 65535; 123; 123; 94; 94;
   91; 91; 63; 63; 60; 60; 45; 45; 43; 43; 40; 40; 36; 36; 35; 35; 34; 34; -1; -1; -1; -1; -1;
   -1; -1; -1; 0; 31; 39; 39; 48; 57; 65; 90; 95; 122; 127; 65535; -1; -1; -1; -1; -1; -1; -1;
   -1; -1; -1; -1; -1; -1; -1; -1; -1; -1; -1; 45; 45; -1; -1; 34; 34; 0; 33; 35; 91; 93; 65535;
   -1; -1; 0; 33; 35; 91; 93; 65535; 92; 92; 34; 34; -1; -1; 34; 34; 92; 92; -1; -1; 0; 33; 35;
   91; 93; 65535; 34; 34; -1; -1; 94; 94; 91; 91; 123; 123; 0; 8; 10; 31; 39; 39; 48; 57; 65;
   90; 95; 122; 127; 65535; 63; 63; 60; 60; 45; 45; 44; 44; 43; 43; 40; 40; 36; 36; 35; 35; 34;
   34; 32; 32; 9; 9; -1; -1; -1; -1; -1; -1; -1; -1; -1; -1; -1; -1; -1; -1; -1; -1; -1; -1; -1;
   -1; -1; -1; 0; 31; 39; 39; 48; 57; 65; 90; 95; 122; 127; 65535; -1; -1; -1; -1; -1; -1; -1;
   -1; 34; 34; 0; 33; 35; 91; 93; 65535; -1; -1; 45; 45; -1; -1; 0; 33; 35; 91; 93; 65535; 92;
   92; 34; 34; -1; -1; 34; 34; 92; 92; -1; -1; 0; 33; 35; 91; 93; 65535; 34; 34; -1; -1; 64; 64;
   93; 93; 125; 125; 123; 123; 126; 126; 124; 124; 9; 9; 32; 32; 63; 63; 62; 62; 61; 61; 60; 60;
   46; 46; 45; 45; 44; 44; 42; 42; 41; 41; 40; 40; 38; 38; 33; 33; -1; -1; -1; -1; -1; -1; -1;
   -1; -1; -1; -1; -1; -1; -1; -1; -1; -1; -1; 45; 45; -1; -1; -1; -1; 124; 124; -1; -1; 124;
   124; 47; 47; 38; 38; -1; -1; -1; -1; -1; -1; -1; -1; -1; -1; -1; -1; -1; -1; -1; -1; -1; -1;
   -1; -1; -1; -1; -1; -1; -1; -1; -1; -1; -1; -1; -1; -1; -1; -1; -1; -1; -1; -1; -1; -1; -1;
   -1; 45; 45; -1; -1; 124; 124; 92; 92; 61; 61; 47; 47; -1; -1; 124; 124; 61; 61; 47; 47; 45;
   45; -1; -1; 93; 93; 45; 45; -1; -1; 62; 62; -1; -1; 62; 62; -1; -1; 62; 62; -1; -1; 62; 62;
   -1; -1; 62; 62; -1; -1; 62; 62; -1; -1; 62; 62; -1; -1; 62; 62; -1; -1; 93; 93; 62; 62; -1;
   -1; 126; 126; 0; 31; 39; 39; 48; 57; 65; 90; 95; 122; 127; 65535; 124; 124; 123; 123; 94; 94;
   92; 92; 91; 91; 63; 63; 60; 60; 47; 47; 45; 45; 43; 43; 42; 42; 40; 40; 38; 38; 36; 36; 35;
   35; 34; 34; -1; -1; -1; -1; 124; 124; -1; -1; -1; -1; -1; -1; -1; -1; -1; -1; 0; 31; 39; 39;
   48; 57; 65; 90; 95; 122; 127; 65535; -1; -1; -1; -1; -1; -1; -1; -1; 45; 45; -1; -1; -1; -1;
   -1; -1; -1; -1; 124; 124; 47; 47; 38; 38; -1; -1; -1; -1; -1; -1; -1; -1; -1; -1; -1; -1; -1;
   -1; -1; -1; -1; -1; 34; 34; 0; 33; 35; 91; 93; 65535; -1; -1; 0; 33; 35; 91; 93; 65535; 92;
   92; 34; 34; -1; -1; 34; 34; 92; 92; -1; -1; 0; 33; 35; 91; 93; 65535; 34; 34; -1; -1; 0; 31;
   39; 39; 48; 57; 65; 90; 95; 122; 127; 65535; 34; 34; -1; -1; 0; 31; 39; 39; 48; 57; 65; 90;
   95; 122; 127; 65535; -1; -1; -1; -1; 34; 34; 0; 33; 35; 91; 93; 65535; -1; -1; 0; 33; 35; 91;
   93; 65535; 92; 92; 34; 34; -1; -1; 34; 34; 92; 92; -1; -1; 0; 33; 35; 91; 93; 65535; 34; 34;
   -1; -1; 48; 57; 45; 45; -1; -1; 48; 57; -1; -1; 48; 57; -1; -1; 59; 59; 36; 36; 9; 9; 32; 32;
   -1; -1; -1; -1; -1; -1; -1; -1; 59; 59; 36; 36; -1; -1; -1; -1; -1; -1; 58; 58; 37; 37; 9; 9;
   32; 32; -1; -1; -1; -1; -1; -1; -1; -1; -1; -1; -1; -1; -1; -1; 124; 124; 92; 92; 47; 47; 33;
   33; -1; -1; 58; 58; -1; -1; 58; 58; -1; -1; 58; 58; -1; -1; 58; 58; 37; 37; -1; -1; -1; -1;
   -1; -1; -1; -1; -1; -1; -1; -1; 124; 124; 92; 92; 47; 47; 33; 33; -1; -1; 58; 58; -1; -1; 58;
   58; -1; -1; 58; 58; -1; -1; 58; 58; 34; 34; 32; 32; 9; 9; 0; 8; 10; 31; 39; 39; 48; 57; 65;
   90; 95; 122; 127; 65535; -1; -1; 0; 31; 39; 39; 48; 57; 65; 90; 95; 122; 127; 65535; -1; -1;
   -1; -1; -1; -1; -1; -1; -1; -1; -1; -1; -1; -1; 124; 124; 92; 92; 47; 47; 33; 33; -1; -1; 34;
   34; 0; 33; 35; 91; 93; 65535; -1; -1; 58; 58; -1; -1; 58; 58; -1; -1; 58; 58; -1; -1; 0; 33;
   35; 91; 93; 65535; 92; 92; 34; 34; -1; -1; 34; 34; 92; 92; -1; -1; 0; 33; 35; 91; 93; 65535;
   34; 34; -1; -1; 58; 58; -1; -1; -1; -1; -1; -1; -1; -1; -1; -1; 124; 124; 92; 92; 47; 47; 33;
   33; -1; -1; 58; 58; -1; -1; 58; 58; -1; -1; 58; 58; -1; -1; 58; 58; 9; 9; 32; 32; -1; -1; -1;
   -1; -1; -1; -1; -1; -1; -1; -1; -1; 124; 124; 92; 92; 47; 47; 33; 33; -1; -1; 58; 58; -1; -1;
   58; 58; -1; -1; 58; 58; -1; -1; 93; 93; 44; 44; -1; -1; -1; -1; -1; -1; 125; 125; 44; 44; -1;
   -1; -1; -1; -1; -1; 126; 126; 124; 124; 123; 123; 61; 61; 60; 60; 45; 45; 44; 44; 42; 42; 38;
   38; -1; -1; 124; 124; -1; -1; 45; 45; -1; -1; -1; -1; -1; -1; -1; -1; 124; 124; 47; 47; 38;
   38; -1; -1; -1; -1; -1; -1; -1; -1; -1; -1; -1; -1; -1; -1; -1; -1; -1; -1; -1; -1; -1; -1;
   -1; -1; -1; -1; -1; -1; -1; -1; -1; -1; -1; -1; 45; 45; -1; -1; 124; 124; 92; 92; 61; 61; 47;
   47; -1; -1; 124; 124; 61; 61; 47; 47; 45; 45; -1; -1; 93; 93; 45; 45; -1; -1; 62; 62; -1; -1;
   62; 62; -1; -1; 62; 62; -1; -1; 62; 62; -1; -1; 62; 62; -1; -1; 62; 62; -1; -1; 62; 62; -1;
   -1; 62; 62; -1; -1; 93; 93; 62; 62; -1; -1; 126; 126; 124; 124; 123; 123; 61; 61; 60; 60; 45;
   45; 44; 44; 42; 42; 41; 41; 38; 38; -1; -1; 45; 45; -1; -1; -1; -1; 124; 124; -1; -1; -1; -1;
   -1; -1; -1; -1; 124; 124; 47; 47; 38; 38; -1; -1; -1; -1; -1; -1; -1; -1; -1; -1; -1; -1; -1;
   -1; -1; -1; -1; -1; -1; -1; -1; -1; -1; -1; -1; -1; -1; -1; -1; -1; -1; -1; -1; -1; 45; 45;
   -1; -1; 124; 124; 92; 92; 61; 61; 47; 47; -1; -1; 124; 124; 61; 61; 47; 47; 45; 45; -1; -1;
   93; 93; 45; 45; -1; -1; 62; 62; -1; -1; 62; 62; -1; -1; 62; 62; -1; -1; 62; 62; -1; -1; 62;
   62; -1; -1; 62; 62; -1; -1; 62; 62; -1; -1; 62; 62; -1; -1; 93; 93; 62; 62; -1; -1; 0; 31;
   39; 39; 48; 57; 65; 90; 95; 122; 127; 65535; 123; 123; 94; 94; 91; 91; 63; 63; 60; 60; 45;
   45; 44; 44; 43; 43; 40; 40; 36; 36; 35; 35; 34; 34; -1; -1; -1; -1; -1; -1; -1; -1; 0; 31;
   39; 39; 48; 57; 65; 90; 95; 122; 127; 65535; -1; -1; -1; -1; -1; -1; -1; -1; -1; -1; -1; -1;
   -1; -1; -1; -1; -1; -1; -1; -1; 45; 45; -1; -1; 34; 34; 0; 33; 35; 91; 93; 65535; -1; -1; 0;
   33; 35; 91; 93; 65535; 92; 92; 34; 34; -1; -1; 34; 34; 92; 92; -1; -1; 0; 33; 35; 91; 93;
   65535; 34; 34; -1; -1; 44; 44; -1; -1; -1; -1; 126; 126; 45; 45; 41; 41; -1; -1; -1; -1; -1;
   -1; -1; -1; 126; 126; 45; 45; -1; -1; -1; -1; -1; -1; 94; 94; 91; 91; 123; 123; 0; 8; 10; 31;
   39; 39; 48; 57; 65; 90; 95; 122; 127; 65535; 63; 63; 60; 60; 45; 45; 44; 44; 43; 43; 40; 40;
   36; 36; 35; 35; 34; 34; 32; 32; 9; 9; -1; -1; -1; -1; -1; -1; -1; -1; -1; -1; -1; -1; -1; -1;
   -1; -1; -1; -1; -1; -1; -1; -1; 0; 31; 39; 39; 48; 57; 65; 90; 95; 122; 127; 65535; -1; -1;
   -1; -1; -1; -1; -1; -1; 34; 34; 0; 33; 35; 91; 93; 65535; -1; -1; 45; 45; -1; -1; 0; 33; 35;
   91; 93; 65535; 92; 92; 34; 34; -1; -1; 34; 34; 92; 92; -1; -1; 0; 33; 35; 91; 93; 65535; 34;
   34; -1; -1; 44; 44; 9; 9; 32; 32; -1; -1; -1; -1; -1; -1; 123; 123; 61; 61; 60; 60; 45; 45;
   -1; -1; -1; -1; -1; -1; -1; -1; -1; -1; -1; -1; -1; -1; -1; -1; -1; -1; -1; -1; -1; -1; -1;
   -1; -1; -1; 45; 45; -1; -1; 124; 124; 92; 92; 61; 61; 47; 47; -1; -1; 124; 124; 61; 61; 47;
   47; 45; 45; -1; -1; 93; 93; 45; 45; -1; -1; 62; 62; -1; -1; 62; 62; -1; -1; 62; 62; -1; -1;
   62; 62; -1; -1; 62; 62; -1; -1; 62; 62; -1; -1; 62; 62; -1; -1; 62; 62; -1; -1; 93; 93; 62;
   62; -1; -1; 45; 45; -1; -1; 64; 64; 93; 93; 125; 125; 123; 123; 126; 126; 124; 124; 9; 9; 32;
   32; 63; 63; 62; 62; 61; 61; 60; 60; 58; 58; 46; 46; 45; 45; 44; 44; 42; 42; 41; 41; 38; 38;
   33; 33; -1; -1; -1; -1; -1; -1; -1; -1; -1; -1; -1; -1; -1; -1; -1; -1; 45; 45; -1; -1; -1;
   -1; 124; 124; -1; -1; 124; 124; 47; 47; 38; 38; -1; -1; -1; -1; -1; -1; -1; -1; -1; -1; -1;
   -1; -1; -1; -1; -1; -1; -1; -1; -1; -1; -1; -1; -1; -1; -1; -1; -1; -1; -1; -1; -1; -1; -1;
   -1; -1; -1; -1; -1; -1; -1; -1; -1; -1; 45; 45; -1; -1; 124; 124; 92; 92; 61; 61; 47; 47; -1;
   -1; 124; 124; 61; 61; 47; 47; 45; 45; -1; -1; 93; 93; 45; 45; -1; -1; 62; 62; -1; -1; 62; 62;
   -1; -1; 62; 62; -1; -1; 62; 62; -1; -1; 62; 62; -1; -1; 62; 62; -1; -1; 62; 62; -1; -1; 62;
   62; -1; -1; 93; 93; 62; 62; -1; -1; 9; 9; 32; 32; 50; 57; 49; 49; 48; 48; 46; 46; -1; -1; 49;
   57; 48; 48; 46; 46; -1; -1; 49; 57; 48; 48; -1; -1; -1; -1; 49; 57; 48; 48; -1; -1; 46; 46;
   -1; -1; 48; 57; -1; -1; 48; 48; -1; -1; 49; 57; 48; 48; -1; -1; 48; 57; -1; -1; 49; 57; 48;
   48; -1; -1; 36; 36; -1; -1; -1; -1; 48; 48; 46; 46; -1; -1; 49; 57; 48; 48; -1; -1; 46; 46;
   -1; -1; 48; 57; -1; -1; 49; 57; 48; 48; -1; -1; 37; 37; -1; -1; -1; -1; 37; 37; 9; 9; 32; 32;
   -1; -1; -1; -1; -1; -1; 44; 44; 41; 41; -1; -1; -1; -1; -1; -1; 93; 93; -1; -1; -1; -1; 125;
   125; -1; -1; -1; -1; 126; 126; 45; 45; 44; 44; 42; 42; 41; 41; -1; -1; -1; -1; -1; -1; -1;
   -1; -1; -1; -1; -1; 126; 126; 124; 124; 45; 45; 44; 44; 41; 41; -1; -1; -1; -1; -1; -1; -1;
   -1; -1; -1; -1; -1; 124; 124; -1; -1; 126; 126; 45; 45; 44; 44; 41; 41; 38; 38; -1; -1; -1;
   -1; -1; -1; -1; -1; -1; -1; -1; -1; 38; 38; -1; -1; 126; 126; 45; 45; 44; 44; 41; 41; 38; 38;
   -1; -1; -1; -1; -1; -1; -1; -1; -1; -1; -1; -1; 47; 47; -1; -1; 126; 126; 45; 45; 44; 44; 41;
   41; 38; 38; -1; -1; -1; -1; -1; -1; -1; -1; -1; -1; -1; -1; 124; 124; -1; -1; 126; 126; 124;
   124; 45; 45; 44; 44; 41; 41; -1; -1; -1; -1; -1; -1; -1; -1; -1; -1; -1; -1; 126; 126; 45;
   45; 44; 44; 41; 41; 38; 38; -1; -1; -1; -1; -1; -1; -1; -1; -1; -1; -1; -1; 41; 41; -1; -1;
   -1; -1; 64; 64; 93; 93; 125; 125; 123; 123; 126; 126; 124; 124; 9; 9; 32; 32; 63; 63; 62; 62;
   61; 61; 60; 60; 46; 46; 45; 45; 44; 44; 42; 42; 41; 41; 38; 38; 33; 33; -1; -1; -1; -1; -1;
   -1; -1; -1; -1; -1; -1; -1; -1; -1; -1; -1; 45; 45; -1; -1; -1; -1; 124; 124; -1; -1; 124;
   124; 47; 47; 38; 38; -1; -1; -1; -1; -1; -1; -1; -1; -1; -1; -1; -1; -1; -1; -1; -1; -1; -1;
   -1; -1; -1; -1; -1; -1; -1; -1; -1; -1; -1; -1; -1; -1; -1; -1; -1; -1; -1; -1; -1; -1; -1;
   -1; 45; 45; -1; -1; 124; 124; 92; 92; 61; 61; 47; 47; -1; -1; 124; 124; 61; 61; 47; 47; 45;
   45; -1; -1; 93; 93; 45; 45; -1; -1; 62; 62; -1; -1; 62; 62; -1; -1; 62; 62; -1; -1; 62; 62;
   -1; -1; 62; 62; -1; -1; 62; 62; -1; -1; 62; 62; -1; -1; 62; 62; -1; -1; 93; 93; 62; 62; -1;
   -1; 9; 9; 32; 32; 49; 49; 48; 48; 46; 46; -1; -1; 46; 46; -1; -1; -1; -1; 48; 57; -1; -1; 46;
   46; -1; -1; 48; 48; -1; -1; 48; 57; -1; -1; 49; 49; 48; 48; 46; 46; -1; -1; 46; 46; -1; -1;
   48; 57; -1; -1; 46; 46; -1; -1; 48; 48; -1; -1; 48; 57; -1; -1; 58; 58; -1; -1; -1; -1; 124;
   124; 44; 44; 42; 42; 38; 38; -1; -1; 124; 124; -1; -1; -1; -1; -1; -1; 124; 124; 47; 47; 38;
   38; -1; -1; -1; -1; -1; -1; -1; -1; -1; -1; 124; 124; 42; 42; 41; 41; 38; 38; -1; -1; 124;
   124; -1; -1; -1; -1; -1; -1; 124; 124; 47; 47; 38; 38; -1; -1; -1; -1; -1; -1; -1; -1; -1;
   -1; 62; 62; -1; -1; -1; -1; 49; 49; 48; 48; 46; 46; -1; -1; 46; 46; -1; -1; 48; 57; -1; -1;
   46; 46; -1; -1; 48; 48; -1; -1; 48; 57; -1; -1; 59; 59; 37; 37; 9; 9; 32; 32; -1; -1; -1; -1;
   -1; -1; -1; -1; 59; 59; 37; 37; -1; -1; -1; -1; -1; -1; 36; 36; 9; 9; 32; 32; -1; -1; -1; -1;
   -1; -1; 48; 48; 46; 46; -1; -1; 49; 57; 48; 48; -1; -1; 46; 46; -1; -1; 48; 57; -1; -1; 49;
   57; 48; 48; -1; -1; 49; 57; -1; -1; 49; 57; 48; 48; -1; -1; 48; 57; -1; -1].

(* Narsese/Parser/narsese.h, dfa_trans, lines 712-715 *)
Definition dfa_trans : list Z :=
   [4; 6; 7; 8; 8; 8; 8; 8; 8; 8; 3; 13; 1; 2; 5; 12; 9; 8; -1; -1; -1; -1; -1; -1; -1; -1; 8;
   8; 8; 8; 8; 8; -1; -1; -1; -1; 10; 14; 14; 14; -1; 11; -1; 14; 14; 14; 15; 10; -1; 16; 16;
   -1; 14; 14; 14; 10; -1; 8; 11; 18; 19; 61; 61; 61; 61; 61; 61; 3; 17; 10; 5; 15; 7; 25; 57;
   20; 22; 24; 58; 27; 55; 9; 28; 26; 16; 1; 13; 21; 2; 12; 23; 4; 6; 54; 14; 29; 61; -1; -1;
   -1; -1; -1; -1; -1; -1; -1; -1; -1; 31; -1; 32; 33; 34; -1; -1; -1; -1; -1; -1; -1; 62; -1;
   71; 69; 70; 72; -1; -1; -1; -1; 74; 75; 73; 35; -1; -1; 36; 37; -1; 65; 61; 61; 61; 61; 61;
   63; 38; -1; 56; 79; -1; -1; -1; -1; -1; -1; -1; -1; 36; -1; 52; 53; -1; 38; -1; -1; -1; -1;
   -1; -1; -1; -1; -1; -1; -1; -1; -1; -1; -1; -1; 30; 60; 60; 60; -1; 61; 61; 61; 61; 61; 63;
   76; -1; 56; 59; -1; 64; 66; 67; 68; -1; 61; 61; 61; 61; 61; 65; 63; -1; 59; -1; 60; 60; 60;
   77; 30; -1; 61; 61; 61; 61; 61; 61; -1; 39; 40; -1; 61; 61; 61; 61; 61; 63; -1; 41; -1; 61;
   61; 61; 61; 61; 58; 63; -1; 42; -1; 43; -1; 44; -1; 45; -1; 46; -1; 47; -1; 48; -1; 49; -1;
   50; -1; 51; -1; 56; 79; -1; 78; 78; -1; 60; 60; 60; 30; -1; 56; 79; -1; 4; 5; 6; 7; 7; 7; 7;
   7; 7; 3; 11; 1; 2; 8; 12; -1; -1; -1; -1; -1; -1; -1; 7; 7; 7; 7; 7; 7; -1; -1; -1; -1; 9;
   -1; 10; 13; 13; 13; -1; 13; 13; 13; 14; 10; -1; 15; 15; -1; 13; 13; 13; 10; -1; 4; 4; 4; 4;
   4; 4; 3; 1; 2; 5; 10; 6; 7; 11; -1; -1; -1; -1; 4; 4; 4; 4; 4; 4; -1; -1; -1; -1; -1; -1; 8;
   -1; 9; 12; 12; 12; -1; 12; 12; 12; 13; 9; -1; 14; 14; -1; 12; 12; 12; 9; -1; 3; 4; 5; 6; 15;
   7; 13; 17; 16; 16; 16; 16; 16; 16; 16; 1; 2; 12; 8; 16; -1; -1; -1; -1; -1; -1; -1; 16; 16;
   16; 16; 16; 16; 17; -1; -1; -1; -1; 11; -1; 9; 18; 18; 18; -1; 16; 16; 16; 16; 16; 16; 11;
   -1; 14; -1; 10; -1; 16; 16; 16; 16; 16; 16; -1; 14; -1; 18; 18; 18; 19; 9; -1; 20; 20; -1;
   18; 18; 18; 9; -1; 1; 3; 2; -1; 4; -1; 5; -1; 2; -1; 4; -1; 5; -1; 2; 1; 3; 4; -1; -1; -1;
   -1; -1; 1; -1; -1; 1; -1; -1; 1; -1; -1; 1; -1; -1; 7; 8; 9; 10; 10; 10; 10; 10; 10; 10; 3;
   6; 15; 4; 5; 1; 2; 14; 11; 10; -1; -1; -1; -1; -1; -1; -1; -1; -1; -1; 10; 10; 10; 10; 10;
   10; -1; -1; -1; -1; 12; 16; 16; 16; -1; 13; -1; 16; 16; 16; 17; 12; -1; 18; 18; -1; 16; 16;
   16; 12; -1; 11; 14; 17; 17; 17; 17; 17; 17; 17; 9; 1; 13; 8; 4; 7; 12; 10; 5; 16; 6; 15; 2;
   3; 25; 18; 17; -1; -1; -1; -1; -1; -1; -1; -1; -1; -1; 20; -1; -1; -1; -1; 21; -1; 22; 23;
   24; -1; -1; 17; 17; 17; 17; 17; 17; -1; -1; -1; -1; -1; -1; -1; -1; 19; 26; 26; 26; -1; 26;
   26; 26; 27; 19; -1; 28; 28; -1; 26; 26; 26; 19; -1; 3; 5; 6; 32; 8; 9; 2; 12; 33; 34; 1; 7;
   4; 10; 11; 13; 14; 15; -1; -1; -1; -1; -1; -1; -1; 44; -1; -1; 16; -1; -1; -1; -1; -1; 17;
   18; 19; -1; -1; -1; -1; -1; -1; -1; -1; -1; -1; -1; -1; -1; -1; -1; -1; -1; -1; 35; -1; 36;
   37; 38; 39; -1; 42; 40; 41; 43; -1; 20; 21; -1; 22; -1; 23; -1; 24; -1; 25; -1; 26; -1; 27;
   -1; 28; -1; 29; -1; 30; 31; -1; 4; 2; 1; 1; 1; 1; 1; 1; 1; 1; -1; 1; 1; 1; 1; 1; 1; -1; -1;
   -1; 3; 5; 5; 5; -1; 5; 5; 5; 6; 3; -1; 7; 7; -1; 5; 5; 5; 3; -1; 2; 2; 1; 3; -1; 1; -1; -1;
   1; -1; 4; 4; 4; 4; 4; 4; 3; 1; 2; 5; 6; 13; 7; 8; 9; 10; 14; -1; -1; -1; -1; 4; 4; 4; 4; 4;
   4; -1; -1; -1; -1; -1; -1; -1; -1; -1; 11; -1; 12; 15; 15; 15; -1; 15; 15; 15; 16; 12; -1;
   17; 17; -1; 15; 15; 15; 12; -1; 7; 8; 9; 11; 11; 11; 11; 11; 11; 11; 3; 6; 16; 10; 4; 5; 1;
   2; 15; 12; 11; -1; -1; -1; -1; -1; -1; -1; -1; -1; -1; -1; 11; 11; 11; 11; 11; 11; -1; -1;
   -1; -1; 13; 17; 17; 17; -1; 14; -1; 17; 17; 17; 18; 13; -1; 19; 19; -1; 17; 17; 17; 13; -1;
   4; 7; 8; 33; 10; 11; 16; 16; 2; 15; 34; 35; 1; 9; 6; 13; 14; 5; 12; 3; -1; -1; -1; -1; -1;
   -1; -1; -1; -1; 45; -1; -1; 17; -1; 18; 19; 20; -1; -1; -1; -1; -1; -1; -1; -1; -1; -1; -1;
   -1; -1; -1; -1; -1; -1; -1; -1; -1; -1; 36; -1; 37; 38; 39; 40; -1; 43; 41; 42; 44; -1; 21;
   22; -1; 23; -1; 24; -1; 25; -1; 26; -1; 27; -1; 28; -1; 29; -1; 30; -1; 31; 32; -1; 3; 7; 7;
   7; 7; 7; 7; 2; 5; 1; 6; 4; 8; 9; 10; 11; 12; 13; 14; 15; 16; 17; 24; -1; -1; 18; -1; -1; -1;
   -1; -1; 7; 7; 7; 7; 7; 7; -1; -1; -1; -1; 19; -1; -1; -1; -1; 21; 20; 22; -1; -1; -1; -1; -1;
   -1; -1; -1; -1; 23; 25; 25; 25; -1; 25; 25; 25; 26; 23; -1; 27; 27; -1; 25; 25; 25; 23; -1;
   1; 1; 1; 1; 1; 1; 3; -1; 1; 1; 1; 1; 1; 1; -1; -1; 2; 4; 4; 4; -1; 4; 4; 4; 5; 2; -1; 6; 6;
   -1; 4; 4; 4; 2; -1; 1; 2; -1; 1; -1; 1; -1; 1; 2; 3; 3; -1; -1; -1; -1; 1; 2; -1; -1; -1; 7;
   1; 2; 2; -1; -1; -1; -1; -1; -1; -1; 9; 10; 8; 3; -1; 4; -1; 5; -1; 6; -1; 6; 1; -1; -1; -1;
   -1; -1; -1; 8; 9; 7; 2; -1; 3; -1; 4; -1; 5; -1; 8; 9; 2; 1; 1; 1; 1; 1; 1; 1; 1; -1; 1; 1;
   1; 1; 1; 1; -1; -1; -1; -1; -1; -1; -1; 11; 12; 10; 3; -1; 4; 13; 13; 13; -1; 5; -1; 6; -1;
   7; -1; 13; 13; 13; 14; 4; -1; 15; 15; -1; 13; 13; 13; 4; -1; 5; -1; -1; -1; -1; -1; 7; 8; 6;
   1; -1; 2; -1; 3; -1; 4; -1; 6; 1; 1; -1; -1; -1; -1; -1; -1; 8; 9; 7; 2; -1; 3; -1; 4; -1; 5;
   -1; 1; 2; -1; -1; -1; 1; 2; -1; -1; -1; 3; 1; 23; 24; 25; 2; 4; 5; 6; -1; 7; -1; 35; -1; -1;
   -1; -1; 9; 8; 10; -1; -1; -1; -1; -1; -1; -1; -1; -1; -1; -1; -1; -1; -1; -1; -1; -1; 26; -1;
   27; 28; 29; 30; -1; 33; 31; 32; 34; -1; 11; 12; -1; 13; -1; 14; -1; 15; -1; 16; -1; 17; -1;
   18; -1; 19; -1; 20; -1; 21; 22; -1; 2; 3; 24; 25; 26; 1; 4; 5; 6; 7; -1; 36; -1; -1; 8; -1;
   -1; -1; -1; 9; 10; 11; -1; -1; -1; -1; -1; -1; -1; -1; -1; -1; -1; -1; -1; -1; -1; -1; -1;
   27; -1; 28; 29; 30; 31; -1; 34; 32; 33; 35; -1; 12; 13; -1; 14; -1; 15; -1; 16; -1; 17; -1;
   18; -1; 19; -1; 20; -1; 21; -1; 22; 23; -1; 4; 4; 4; 4; 4; 4; 3; 1; 2; 5; 6; 14; 7; 8; 9; 10;
   11; 15; -1; -1; -1; -1; 4; 4; 4; 4; 4; 4; -1; -1; -1; -1; -1; -1; -1; -1; -1; -1; 12; -1; 13;
   16; 16; 16; -1; 16; 16; 16; 17; 13; -1; 18; 18; -1; 16; 16; 16; 13; -1; 1; -1; -1; 2; 1; 3;
   -1; -1; -1; -1; 1; 2; -1; -1; -1; 8; 9; 10; 11; 11; 11; 11; 11; 11; 11; 4; 7; 16; 1; 5; 6; 2;
   3; 15; 12; 11; -1; -1; -1; -1; -1; -1; -1; -1; -1; -1; -1; 11; 11; 11; 11; 11; 11; -1; -1;
   -1; -1; 13; 17; 17; 17; -1; 14; -1; 17; 17; 17; 18; 13; -1; 19; 19; -1; 17; 17; 17; 13; -1;
   1; 2; 2; -1; -1; -1; 13; 14; 15; 26; -1; -1; -1; -1; -1; -1; -1; -1; -1; -1; -1; -1; -1; 16;
   -1; 17; 18; 19; 20; -1; 23; 21; 22; 24; -1; 1; 2; -1; 3; -1; 4; -1; 5; -1; 6; -1; 7; -1; 8;
   -1; 9; -1; 10; -1; 11; 12; -1; 25; -1; 4; 6; 7; 33; 9; 10; 16; 16; 2; 15; 34; 35; 14; 1; 8;
   5; 12; 13; 11; 3; -1; -1; -1; -1; -1; -1; -1; -1; 45; -1; -1; 17; -1; 18; 19; 20; -1; -1; -1;
   -1; -1; -1; -1; -1; -1; -1; -1; -1; -1; -1; -1; -1; -1; -1; -1; -1; -1; -1; 36; -1; 37; 38;
   39; 40; -1; 43; 41; 42; 44; -1; 21; 22; -1; 23; -1; 24; -1; 25; -1; 26; -1; 27; -1; 28; -1;
   29; -1; 30; -1; 31; 32; -1; 3; 3; 2; 1; 5; 4; -1; 2; 6; 7; -1; 2; 6; -1; -1; 8; 10; -1; 4;
   -1; 6; -1; 7; -1; 8; 9; -1; 9; -1; 8; 10; -1; 1; -1; -1; 2; 4; -1; 1; 3; -1; 4; -1; 3; -1; 1;
   4; -1; 1; -1; -1; 1; 2; 2; -1; -1; -1; 1; 2; -1; -1; -1; 1; -1; -1; 1; -1; -1; 2; 1; 3; 4; 5;
   -1; -1; -1; -1; -1; -1; 1; 6; 2; 3; 4; -1; -1; -1; -1; -1; -1; 5; -1; 3; 2; 4; 1; 6; -1; -1;
   -1; -1; -1; -1; 5; -1; 3; 2; 4; 1; 6; -1; -1; -1; -1; -1; -1; 5; -1; 3; 2; 4; 1; 6; -1; -1;
   -1; -1; -1; -1; 5; -1; 1; 2; 3; 4; 5; -1; -1; -1; -1; -1; -1; 3; 2; 4; 1; 5; -1; -1; -1; -1;
   -1; -1; 1; -1; -1; 4; 6; 7; 32; 9; 10; 15; 15; 2; 14; 33; 34; 1; 8; 5; 12; 13; 11; 3; -1; -1;
   -1; -1; -1; -1; -1; -1; 44; -1; -1; 16; -1; 17; 18; 19; -1; -1; -1; -1; -1; -1; -1; -1; -1;
   -1; -1; -1; -1; -1; -1; -1; -1; -1; -1; -1; -1; 35; -1; 36; 37; 38; 39; -1; 42; 40; 41; 43;
   -1; 20; 21; -1; 22; -1; 23; -1; 24; -1; 25; -1; 26; -1; 27; -1; 28; -1; 29; -1; 30; 31; -1;
   2; 2; 4; 1; 3; -1; 3; -1; -1; 6; -1; 5; -1; 5; -1; 6; -1; 1; 3; 2; -1; 4; -1; 5; -1; 2; -1;
   4; -1; 5; -1; 1; -1; -1; 1; 2; 3; 4; -1; 5; -1; -1; -1; 7; 6; 8; -1; -1; -1; -1; -1; 1; 2; 3;
   4; -1; 5; -1; -1; -1; 7; 6; 8; -1; -1; -1; -1; -1; 1; -1; -1; 1; 3; 2; -1; 4; -1; 5; -1; 2;
   -1; 4; -1; 5; -1; 1; 2; 3; 3; -1; -1; -1; -1; 1; 2; -1; -1; -1; 1; 2; 2; -1; -1; -1; 2; 4;
   -1; 1; 3; -1; 4; -1; 3; -1; 1; 4; -1; 1; -1; 1; 2; -1; 2; -1].

(* Narsese/Parser/narsese.h, dfa_accept, lines 718-790 *)
Definition dfa_accept : list (list Z) :=
  [
   [0; 29; 50; 52; 33; 12; 17; 16; 4; 59; 7; 15; 0; 0; 0; 0; 0];
   [0; 29; 50; 33; 12; 17; 11; 55; 18; 13; 14; 21; 20; 26; 54; 53; 48; 28; 27; 16; 52; 49; 2; 3;
   9; 51; 19; 4; 56; 59; 7; 25; 22; 23; 24; 10; 58; 15; 30; 43; 45; 40; 39; 42; 41; 38; 37; 34;
   46; 8; 6; 5; 44; 47; 0; 4; 30; 0; 4; 30; 0; 4; 0; 4; 0; 4; 0; 0; 0; 0; 0; 0; 0; 0; 0; 0; 0;
   0; 0; 30];
   [0; 29; 50; 52; 33; 17; 16; 4; 12; 15; 7; 0; 0; 0; 0; 0];
   [0; 33; 17; 16; 4; 52; 29; 50; 15; 7; 0; 0; 0; 0; 0];
   [0; 29; 50; 52; 33; 17; 16; 4; 59; 7; 15; 32; 0; 4; 32; 0; 4; 0; 0; 0; 0];
   [0; 32; 0; 32; 32; 32];
   [0; 55; 53; 56; 54];
   [0; 56];
   [0; 55];
   [0; 54];
   [0; 53];
   [0; 12; 11; 55; 29; 50; 52; 33; 17; 16; 4; 59; 7; 15; 0; 0; 0; 0; 0];
   [0; 33; 12; 11; 55; 29; 50; 52; 17; 16; 19; 18; 13; 14; 21; 20; 26; 4; 59; 7; 15; 25; 22; 23;
   24; 0; 0; 0; 0];
   [0; 56; 55; 53; 48; 28; 27; 19; 18; 21; 26; 49; 51; 50; 20; 54; 25; 22; 23; 24; 43; 45; 40;
   39; 42; 41; 38; 37; 34; 46; 44; 47; 0; 0; 0; 0; 0; 0; 0; 0; 0; 0; 0; 0; 0];
   [0; 4; 59; 7; 0; 0; 0; 0];
   [0; 58; 59; 0];
   [0; 33; 17; 16; 4; 55; 52; 29; 50; 12; 11; 15; 7; 0; 0; 0; 0; 0];
   [0; 12; 11; 55; 29; 50; 52; 33; 17; 16; 48; 4; 59; 7; 15; 0; 0; 0; 0; 0];
   [0; 56; 55; 54; 53; 50; 48; 28; 27; 19; 18; 21; 20; 26; 49; 51; 59; 25; 22; 23; 24; 43; 45;
   40; 39; 42; 41; 38; 37; 34; 46; 44; 47; 0; 0; 0; 0; 0; 0; 0; 0; 0; 0; 0; 0; 0];
   [0; 33; 21; 18; 17; 16; 14; 4; 55; 52; 13; 19; 29; 26; 50; 20; 12; 11; 25; 15; 23; 22; 24; 7;
   0; 0; 0; 0];
   [0; 4; 7; 0; 0; 0; 0];
   [0; 58; 0];
   [0; 2; 12; 59];
   [0; 2; 12];
   [0; 3; 59; 10; 8; 6; 5; 0; 0; 0; 0];
   [0; 3; 10; 8; 6; 5; 0; 0; 0; 0];
   [0; 4; 59; 10; 7; 8; 6; 5; 0; 0; 0; 0; 0; 0; 0; 0];
   [0; 10; 8; 6; 5; 0; 0; 0; 0];
   [0; 59; 10; 8; 6; 5; 0; 0; 0; 0];
   [0; 28; 48];
   [0; 27; 48];
   [0; 21; 19; 18; 48; 26; 20; 25; 23; 22; 24; 43; 45; 40; 39; 42; 41; 38; 37; 34; 46; 44; 47;
   0; 0; 0; 0; 0; 0; 0; 0; 0; 0; 0; 0; 0];
   [0; 19; 18; 21; 48; 26; 49; 20; 25; 22; 23; 24; 43; 45; 40; 39; 42; 41; 38; 37; 34; 46; 44;
   47; 0; 0; 0; 0; 0; 0; 0; 0; 0; 0; 0; 0; 0];
   [0; 33; 17; 16; 4; 55; 52; 48; 29; 50; 12; 11; 15; 7; 0; 0; 0; 0; 0];
   [0; 48];
   [0; 19; 18; 49];
   [0; 18; 19];
   [0; 48; 12; 11; 55; 29; 50; 52; 33; 17; 16; 4; 59; 7; 15; 0; 0; 0; 0; 0];
   [0; 48; 59];
   [0; 43; 45; 40; 39; 42; 41; 38; 37; 34; 46; 44; 47; 0; 0; 0; 0; 0; 0; 0; 0; 0; 0; 0; 0; 0; 0];
   [0; 56; 55; 54; 53; 48; 28; 27; 19; 18; 21; 20; 26; 49; 9; 51; 59; 25; 22; 23; 24; 43; 45;
   40; 39; 42; 41; 38; 37; 34; 46; 44; 47; 0; 0; 0; 0; 0; 0; 0; 0; 0; 0; 0; 0; 0];
   [0; 30; 35; 59; 0; 30; 35; 30; 30; 30; 30];
   [0; 12];
   [0; 31; 0; 31; 0];
   [0; 3];
   [0; 3; 59];
   [0; 48; 49];
   [0; 28];
   [0; 27];
   [0; 19; 18; 48; 26; 49];
   [0; 18; 19; 48; 49; 25; 0];
   [0; 49; 19; 18; 48; 24; 0];
   [0; 49; 19; 18; 48; 23; 0];
   [0; 49; 19; 18; 48; 22; 0];
   [0; 18; 21; 19; 48; 49];
   [0; 49; 19; 18; 48; 20];
   [0; 49];
   [0; 56; 55; 54; 53; 48; 28; 27; 19; 18; 21; 20; 26; 49; 51; 59; 25; 22; 23; 24; 43; 45; 40;
   39; 42; 41; 38; 37; 34; 46; 44; 47; 0; 0; 0; 0; 0; 0; 0; 0; 0; 0; 0; 0; 0];
   [0; 57; 59; 0; 57; 57; 57];
   [0; 57; 0; 57; 57; 57];
   [0; 9];
   [0; 21; 48; 26; 20; 25; 23; 22; 24];
   [0; 21; 26; 49; 20; 25; 23; 22; 24];
   [0; 51];
   [0; 30; 0; 30; 30; 30];
   [0; 2; 3; 59];
   [0; 2; 3];
   [0; 12; 59];
   [0; 36; 0; 36; 0];
   [0; 35; 35]
  ].

(* Narsese/Parser/narsese.h, symbols, lines 795-1031: the emit name and the greedy flag of each symbol *)
Definition symbols : list (string * bool) :=
  [
   ("", true);
   ("", true);
   ("", true);
   ("string_raw", true);
   ("", true);
   ("", true);
   ("string", true);
   ("", true);
   ("", true);
   ("", true);
   ("", true);
   ("", true);
   ("", true);
   ("", true);
   ("", true);
   ("", true);
   ("", true);
   ("", true);
   ("", true);
   ("", true);
   ("", true);
   ("", true);
   ("", true);
   ("", true);
   ("", true);
   ("", true);
   ("", true);
   ("", true);
   ("", true);
   ("quality", true);
   ("durability", true);
   ("priority", true);
   ("", true);
   ("", true);
   ("k_evidence", true);
   ("confidence", true);
   ("", true);
   ("", true);
   ("", true);
   ("", true);
   ("", true);
   ("", true);
   ("", true);
   ("", true);
   ("", true);
   ("", true);
   ("", true);
   ("", true);
   ("", true);
   ("", true);
   ("", true);
   ("", true);
   ("", true);
   ("", true);
   ("", true);
   ("", true);
   ("frequency", true);
   ("integer", true);
   ("", true);
   ("", true);
   ("", true);
   ("", true);
   ("", true);
   ("", true);
   ("", true);
   ("", true);
   ("", true);
   ("", true);
   ("", true);
   ("", true);
   ("", true);
   ("", true);
   ("", true);
   ("", true);
   ("", true);
   ("", true);
   ("", true);
   ("", true);
   ("", true);
   ("", true);
   ("", true);
   ("", true);
   ("", true);
   ("", true);
   ("", true);
   ("", true);
   ("", true);
   ("", true);
   ("", true);
   ("", true);
   ("", true);
   ("", true);
   ("", true);
   ("", true);
   ("", true);
   ("", true);
   ("", true);
   ("", true);
   ("", true);
   ("", true);
   ("", true);
   ("", true);
   ("", true);
   ("", true);
   ("", true);
   ("", true);
   ("", true);
   ("", true);
   ("", true);
   ("", true);
   ("", true);
   ("", true);
   ("", true);
   ("", true);
   ("", true);
   ("", true);
   ("", true);
   ("", true);
   ("", true);
   ("", true);
   ("", true);
   ("", true);
   ("", true);
   ("", true);
   ("", true);
   ("", true);
   ("", true);
   ("", true);
   ("", true);
   ("", true);
   ("", true);
   ("", true);
   ("", true);
   ("", true);
   ("", true);
   ("", true);
   ("", true);
   ("", true);
   ("", true);
   ("", true);
   ("", true);
   ("", true);
   ("", true);
   ("", true);
   ("", true);
   ("", true);
   ("", true);
   ("", true);
   ("", true);
   ("", true);
   ("", true);
   ("", true);
   ("", true);
   ("", true);
   ("", true);
   ("", true);
   ("", true);
   ("", true);
   ("", true);
   ("", true);
   ("", true);
   ("", true);
   ("", true);
   ("", true);
   ("", true);
   ("", true);
   ("", true);
   ("", true);
   ("", true);
   ("", true);
   ("", true);
   ("", true);
   ("", true);
   ("", true);
   ("", true);
   ("", true);
   ("", true);
   ("", true);
   ("", true);
   ("", true);
   ("", true);
   ("", true);
   ("", true);
   ("", true);
   ("", true);
   ("", true);
   ("", true);
   ("", true);
   ("", true);
   ("", true);
   ("", true);
   ("", true);
   ("", true);
   ("", true);
   ("", true);
   ("", true);
   ("", true);
   ("", true);
   ("", true);
   ("", true);
   ("", true);
   ("", true);
   ("", true);
   ("", true);
   ("", true);
   ("", true);
   ("", true);
   ("", true);
   ("", true);
   ("", true);
   ("", true);
   ("", true);
   ("", true);
   ("", true);
   ("", true);
   ("", true);
   ("", true);
   ("", true);
   ("", true);
   ("", true);
   ("", true);
   ("", true);
   ("", true);
   ("", true);
   ("", true);
   ("", true);
   ("", true);
   ("", true);
   ("", true);
   ("", true);
   ("", true);
   ("", true);
   ("", true);
   ("", true)
  ].

(* Narsese/Parser/narsese.h, productions, lines 1034-1306: emit name, length and left-hand side of each production *)
Definition productions : list (string * Z * Z) :=
  [
   ("", 1, 231);
   ("", 1, 230);
   ("", 0, 230);
   ("task", 2, 233);
   ("", 1, 226);
   ("", 1, 226);
   ("judgement", 4, 229);
   ("", 1, 224);
   ("", 1, 223);
   ("", 0, 223);
   ("", 1, 221);
   ("", 1, 220);
   ("", 0, 220);
   ("", 1, 219);
   ("", 1, 219);
   ("question", 3, 229);
   ("", 1, 218);
   ("", 1, 217);
   ("", 0, 217);
   ("", 1, 216);
   ("", 1, 216);
   ("goal", 4, 229);
   ("", 1, 215);
   ("", 1, 214);
   ("", 0, 214);
   ("", 1, 212);
   ("", 1, 211);
   ("", 0, 211);
   ("", 1, 210);
   ("", 1, 210);
   ("quest", 3, 229);
   ("", 1, 209);
   ("", 1, 208);
   ("", 0, 208);
   ("", 5, 205);
   ("", 5, 205);
   ("statement", 1, 227);
   ("statement_operation1", 4, 227);
   ("", 2, 203);
   ("", 2, 202);
   ("", 1, 202);
   ("", 1, 201);
   ("", 0, 201);
   ("statement_operation2", 5, 227);
   ("", 2, 199);
   ("", 2, 198);
   ("", 1, 198);
   ("", 1, 197);
   ("", 0, 197);
   ("inheritance", 1, 206);
   ("similarity", 1, 206);
   ("instance", 1, 206);
   ("property", 1, 206);
   ("instance_property", 1, 206);
   ("implication", 1, 206);
   ("predictive_implication", 1, 206);
   ("concurrent_implication", 1, 206);
   ("retrospective_implication", 1, 206);
   ("equivalence", 1, 206);
   ("predictive_equivalence", 1, 206);
   ("concurrent_equivalence", 1, 206);
   ("variable_term", 1, 207);
   ("", 1, 207);
   ("", 1, 228);
   ("atom_term", 1, 228);
   ("compound_term", 1, 228);
   ("statement_term", 1, 228);
   ("", 1, 228);
   ("operation", 2, 204);
   ("interval", 2, 195);
   ("", 1, 194);
   ("", 1, 194);
   ("", 1, 194);
   ("", 1, 194);
   ("", 1, 194);
   ("", 1, 194);
   ("", 1, 185);
   ("", 1, 185);
   ("set", 1, 193);
   ("", 4, 187);
   ("", 2, 183);
   ("", 2, 182);
   ("", 1, 182);
   ("", 1, 181);
   ("", 0, 181);
   ("", 4, 186);
   ("", 2, 179);
   ("", 2, 178);
   ("", 1, 178);
   ("", 1, 177);
   ("", 0, 177);
   ("", 2, 175);
   ("", 5, 175);
   ("negation", 1, 188);
   ("int_image", 6, 189);
   ("", 2, 173);
   ("", 2, 172);
   ("", 1, 172);
   ("", 1, 171);
   ("", 0, 171);
   ("ext_image", 6, 190);
   ("", 2, 169);
   ("", 2, 168);
   ("", 1, 168);
   ("", 1, 167);
   ("", 0, 167);
   ("multi_infix", 3, 192);
   ("multi_prefix_product", 4, 192);
   ("", 2, 165);
   ("", 2, 164);
   ("", 1, 164);
   ("", 6, 156);
   ("", 2, 162);
   ("", 2, 161);
   ("", 1, 161);
   ("", 6, 156);
   ("", 2, 159);
   ("", 2, 158);
   ("", 1, 158);
   ("", 1, 157);
   ("", 0, 157);
   ("multi_prefix", 1, 192);
   ("single_prefix", 7, 191);
   ("", 1, 154);
   ("", 1, 154);
   ("", 1, 153);
   ("", 1, 153);
   ("single_infix", 5, 191);
   ("", 1, 152);
   ("", 1, 152);
   ("", 1, 151);
   ("", 1, 151);
   ("", 1, 166);
   ("", 1, 166);
   ("", 1, 166);
   ("", 1, 166);
   ("", 1, 166);
   ("", 1, 166);
   ("", 1, 166);
   ("multi_prod_expr", 2, 144);
   ("", 2, 143);
   ("", 2, 142);
   ("", 1, 142);
   ("multi_disj_expr", 2, 145);
   ("", 2, 141);
   ("", 2, 140);
   ("", 1, 140);
   ("multi_conj_expr", 2, 146);
   ("", 2, 139);
   ("", 2, 138);
   ("", 1, 138);
   ("multi_sequential_expr", 2, 147);
   ("", 2, 137);
   ("", 2, 136);
   ("", 1, 136);
   ("multi_parallel_expr", 2, 148);
   ("", 2, 135);
   ("", 2, 134);
   ("", 1, 134);
   ("multi_intint_expr", 2, 149);
   ("", 2, 133);
   ("", 2, 132);
   ("", 1, 132);
   ("multi_extint_expr", 2, 150);
   ("", 2, 131);
   ("", 2, 130);
   ("", 1, 130);
   ("con_conjunction", 1, 163);
   ("con_disjunction", 1, 163);
   ("con_parallel_events", 1, 163);
   ("con_sequential_events", 1, 163);
   ("con_intensional_intersection", 1, 163);
   ("con_extensional_intersection", 1, 163);
   ("con_product", 1, 160);
   ("con_extensional_difference", 1, 155);
   ("con_intensional_difference", 1, 155);
   ("con_int_set", 1, 184);
   ("con_ext_set", 1, 180);
   ("con_negation", 1, 176);
   ("con_int_image", 1, 174);
   ("con_ext_image", 1, 170);
   ("independent_var", 2, 196);
   ("dependent_var", 2, 196);
   ("query_var", 2, 196);
   ("tense_time", 3, 225);
   ("tense_future", 1, 225);
   ("tense_present", 1, 225);
   ("tense_past", 1, 225);
   ("", 1, 213);
   ("truth", 4, 222);
   ("", 3, 127);
   ("", 2, 129);
   ("", 1, 128);
   ("", 0, 128);
   ("", 1, 126);
   ("", 0, 126);
   ("budget", 4, 232);
   ("", 3, 123);
   ("", 2, 125);
   ("", 1, 124);
   ("", 0, 124);
   ("", 1, 122);
   ("", 0, 122);
   ("", 1, 121);
   ("", 1, 121);
   ("", 1, 200);
   ("", 2, 120);
   ("", 1, 119);
   ("", 2, 118);
   ("", 1, 118);
   ("", 1, 117);
   ("", 0, 117);
   ("", 2, 116);
   ("", 2, 115);
   ("", 2, 114);
   ("", 2, 113);
   ("", 2, 112);
   ("", 2, 111);
   ("", 2, 110);
   ("", 2, 109);
   ("", 2, 108);
   ("", 2, 107);
   ("", 2, 106);
   ("", 2, 105);
   ("", 2, 104);
   ("", 2, 103);
   ("", 2, 102);
   ("", 2, 101);
   ("", 2, 100);
   ("", 2, 99);
   ("", 2, 98);
   ("", 2, 97);
   ("", 2, 96);
   ("", 2, 95);
   ("", 2, 94);
   ("", 2, 93);
   ("", 2, 92);
   ("", 2, 91);
   ("", 2, 90);
   ("", 2, 89);
   ("", 2, 88);
   ("", 2, 87);
   ("", 2, 86);
   ("", 2, 85);
   ("", 2, 84);
   ("", 2, 83);
   ("", 2, 82);
   ("", 2, 81);
   ("", 2, 80);
   ("", 2, 79);
   ("", 2, 78);
   ("", 2, 77);
   ("", 2, 76);
   ("", 2, 75);
   ("", 2, 74);
   ("", 2, 73);
   ("", 2, 72);
   ("", 2, 71);
   ("", 2, 70);
   ("", 2, 69);
   ("", 2, 68);
   ("", 2, 67);
   ("", 2, 66);
   ("", 2, 65);
   ("", 2, 64);
   ("", 2, 63);
   ("", 2, 62);
   ("", 2, 61);
   ("", 2, 60);
   ("", 2, 59)
  ].
