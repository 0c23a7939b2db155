(* Certificates about the parser tables.  Nothing here is in the code: the
   lists were computed from the tables by a script, and ParserFacts checks
   everything it uses of them. *)
From Coq Require Import ZArith List.
Import ListNotations.
Open Scope Z_scope.

(* For every state of the parser the productions it may be working on, each
   with the number of right-hand side symbols already on the stack. *)
Definition items : list (list (nat * nat)) :=
  [
   [(207,0); (208,0); (209,0); (210,0); (211,0); (269,0)];
   [(207,0); (208,1); (210,1)];
   [(0,0); (1,0); (2,0); (3,0); (196,0); (206,0); (225,0); (269,1)];
   [(206,1)];
   [(3,1); (4,0); (5,0); (6,0); (13,0); (14,0); (15,0); (19,0); (20,0); (21,0); (28,0); (29,0);
   (30,0); (34,0); (35,0); (36,0); (37,0); (43,0); (63,0); (64,0); (65,0); (66,0); (67,0);
   (68,0); (69,0); (70,0); (71,0); (72,0); (73,0); (74,0); (75,0); (76,0); (77,0); (78,0);
   (79,0); (85,0); (91,0); (92,0); (93,0); (94,0); (100,0); (106,0); (107,0); (111,0); (115,0);
   (121,0); (122,0); (127,0); (176,0); (177,0); (178,0); (203,0); (204,0); (205,0); (222,0);
   (227,0); (228,0); (229,0); (230,0); (244,0); (257,0); (259,0); (260,0)];
   [(207,0); (208,0); (209,0); (210,0); (211,0); (225,1)];
   [(196,1); (266,0)];
   [(4,1); (13,1); (19,1); (28,1)];
   [(5,1); (14,1); (20,1); (29,1); (66,1)];
   [(6,1); (212,0)];
   [(15,1); (213,0)];
   [(21,1); (214,0)];
   [(30,1); (215,0)];
   [(207,0); (208,0); (209,0); (210,0); (211,0); (230,1)];
   [(207,0); (208,0); (209,0); (210,0); (211,0); (222,1)];
   [(43,1); (64,1); (222,0)];
   [(207,0); (208,0); (209,0); (210,0); (211,0); (229,1)];
   [(207,0); (208,0); (209,0); (210,0); (211,0); (260,1)];
   [(34,0); (35,0); (36,0); (37,0); (43,0); (61,0); (62,0); (63,0); (64,0); (65,0); (66,0);
   (67,0); (68,0); (69,0); (70,0); (71,0); (72,0); (73,0); (74,0); (75,0); (76,0); (77,0);
   (78,0); (79,0); (79,1); (85,0); (91,0); (92,0); (93,0); (94,0); (100,0); (106,0); (107,0);
   (111,0); (115,0); (121,0); (122,0); (127,0); (176,0); (177,0); (178,0); (181,0); (182,0);
   (183,0); (203,0); (204,0); (205,0); (213,0); (222,0); (225,0); (226,0); (227,0); (228,0);
   (229,0); (230,0); (244,0); (257,0); (259,0); (260,0)];
   [(34,0); (35,0); (36,0); (37,0); (43,0); (61,0); (62,0); (63,0); (64,0); (65,0); (66,0);
   (67,0); (68,0); (69,0); (70,0); (71,0); (72,0); (73,0); (74,0); (75,0); (76,0); (77,0);
   (78,0); (79,0); (85,0); (85,1); (91,0); (92,0); (93,0); (94,0); (100,0); (106,0); (107,0);
   (111,0); (115,0); (121,0); (122,0); (127,0); (176,0); (177,0); (178,0); (181,0); (182,0);
   (183,0); (203,0); (204,0); (205,0); (213,0); (222,0); (225,0); (226,0); (227,0); (228,0);
   (229,0); (230,0); (244,0); (257,0); (259,0); (260,0)];
   [(34,0); (35,0); (36,0); (37,0); (43,0); (61,0); (62,0); (63,0); (64,0); (65,0); (66,0);
   (67,0); (68,0); (69,0); (70,0); (71,0); (72,0); (73,0); (74,0); (75,0); (76,0); (77,0);
   (78,0); (79,0); (85,0); (91,0); (91,1); (92,0); (93,0); (94,0); (100,0); (106,0); (107,0);
   (111,0); (115,0); (121,0); (122,0); (127,0); (176,0); (177,0); (178,0); (181,0); (182,0);
   (183,0); (203,0); (204,0); (205,0); (213,0); (222,0); (225,0); (226,0); (227,0); (228,0);
   (229,0); (230,0); (244,0); (257,0); (259,0); (260,0)];
   [(207,0); (208,0); (209,0); (210,0); (211,0); (259,1)];
   [(207,0); (208,0); (209,0); (210,0); (211,0); (257,1)];
   [(207,0); (208,0); (209,0); (210,0); (211,0); (244,1)];
   [(207,0); (208,0); (209,0); (210,0); (211,0); (227,1)];
   [(207,0); (208,0); (209,0); (210,0); (211,0); (228,1)];
   [(34,0); (35,0); (35,1); (36,0); (37,0); (37,1); (43,0); (61,0); (62,0); (63,0); (64,0);
   (65,0); (66,0); (67,0); (68,0); (69,0); (70,0); (71,0); (72,0); (73,0); (74,0); (75,0);
   (76,0); (77,0); (78,0); (79,0); (85,0); (91,0); (92,0); (92,1); (93,0); (94,0); (94,1);
   (100,0); (100,1); (106,0); (106,1); (107,0); (107,1); (111,0); (111,1); (115,0); (115,1);
   (121,0); (122,0); (122,1); (127,0); (127,1); (128,0); (129,0); (132,0); (133,0); (134,0);
   (135,0); (136,0); (137,0); (138,0); (139,0); (143,0); (147,0); (151,0); (155,0); (159,0);
   (163,0); (167,0); (168,0); (169,0); (170,0); (171,0); (172,0); (173,0); (174,0); (175,0);
   (176,0); (177,0); (178,0); (179,0); (180,0); (181,0); (182,0); (183,0); (203,0); (204,0);
   (205,0); (213,0); (222,0); (225,0); (226,0); (227,0); (228,0); (229,0); (230,0); (244,0);
   (245,0); (246,0); (247,0); (248,0); (249,0); (250,0); (251,0); (252,0); (253,0); (254,0);
   (255,0); (257,0); (259,0); (260,0)];
   [(68,1); (203,0); (204,0); (205,0); (227,0); (228,0)];
   [(34,0); (34,1); (35,0); (36,0); (37,0); (43,0); (61,0); (62,0); (63,0); (64,0); (65,0);
   (66,0); (67,0); (68,0); (69,0); (70,0); (71,0); (72,0); (73,0); (74,0); (75,0); (76,0);
   (77,0); (78,0); (79,0); (85,0); (91,0); (92,0); (93,0); (94,0); (100,0); (106,0); (107,0);
   (111,0); (115,0); (121,0); (122,0); (127,0); (176,0); (177,0); (178,0); (181,0); (182,0);
   (183,0); (203,0); (204,0); (205,0); (213,0); (222,0); (225,0); (226,0); (227,0); (228,0);
   (229,0); (230,0); (244,0); (257,0); (259,0); (260,0)];
   [(69,1); (217,0)];
   [(207,0); (208,0); (209,0); (210,0); (211,0); (266,1)];
   [(196,2); (197,0); (201,0); (202,0); (263,0)];
   [(207,0); (208,0); (209,0); (210,0); (211,0); (212,1)];
   [(6,2); (7,0); (8,0); (9,0); (184,0); (185,0); (186,0); (187,0); (216,0); (219,0); (220,0);
   (221,0)];
   [(207,0); (208,0); (209,0); (210,0); (211,0); (213,1)];
   [(15,2); (16,0); (17,0); (18,0); (184,0); (185,0); (186,0); (187,0); (216,0); (219,0);
   (220,0); (221,0)];
   [(207,0); (208,0); (209,0); (210,0); (211,0); (214,1)];
   [(21,2); (22,0); (23,0); (24,0); (184,0); (185,0); (186,0); (187,0); (216,0); (219,0);
   (220,0); (221,0)];
   [(207,0); (208,0); (209,0); (210,0); (211,0); (215,1)];
   [(30,2); (31,0); (32,0); (33,0); (184,0); (185,0); (186,0); (187,0); (216,0); (219,0);
   (220,0); (221,0)];
   [(34,0); (35,0); (36,0); (37,0); (43,0); (43,2); (61,0); (62,0); (63,0); (64,0); (65,0);
   (66,0); (67,0); (68,0); (69,0); (70,0); (71,0); (72,0); (73,0); (74,0); (75,0); (76,0);
   (77,0); (78,0); (79,0); (85,0); (91,0); (92,0); (93,0); (94,0); (100,0); (106,0); (107,0);
   (111,0); (115,0); (121,0); (122,0); (127,0); (176,0); (177,0); (178,0); (181,0); (182,0);
   (183,0); (203,0); (204,0); (205,0); (213,0); (222,0); (225,0); (226,0); (227,0); (228,0);
   (229,0); (230,0); (244,0); (257,0); (259,0); (260,0)];
   [(79,2); (80,0); (81,0); (82,0); (83,0); (84,0); (224,0)];
   [(207,0); (208,0); (209,0); (210,0); (211,0); (226,1)];
   [(183,1); (203,0); (204,0); (205,0); (227,0); (228,0)];
   [(181,1); (203,0); (204,0); (205,0); (227,0); (228,0)];
   [(182,1); (203,0); (204,0); (205,0); (227,0); (228,0)];
   [(85,2); (86,0); (87,0); (88,0); (89,0); (90,0); (224,0)];
   [(35,2); (49,0); (50,0); (51,0); (52,0); (53,0); (54,0); (55,0); (56,0); (57,0); (58,0);
   (59,0); (60,0); (107,2); (108,0); (109,0); (110,0); (128,1); (139,1); (140,0); (141,0);
   (142,0); (143,1); (144,0); (145,0); (146,0); (147,1); (148,0); (149,0); (150,0); (151,1);
   (152,0); (153,0); (154,0); (155,1); (156,0); (157,0); (158,0); (159,1); (160,0); (161,0);
   (162,0); (163,1); (164,0); (165,0); (166,0); (224,0); (232,0); (233,0); (234,0); (235,0);
   (236,0); (237,0); (238,0); (239,0); (240,0); (241,0); (242,0); (243,0); (247,0); (248,0);
   (249,0); (250,0); (251,0); (252,0); (253,0)];
   [(37,2); (38,0); (39,0); (40,0); (41,0); (42,0); (67,1); (224,0)];
   [(34,0); (35,0); (36,0); (37,0); (43,0); (61,0); (62,0); (63,0); (64,0); (65,0); (66,0);
   (67,0); (68,0); (69,0); (70,0); (71,0); (72,0); (73,0); (74,0); (75,0); (76,0); (77,0);
   (78,0); (79,0); (85,0); (91,0); (91,1); (92,0); (92,2); (93,0); (94,0); (100,0); (106,0);
   (107,0); (111,0); (115,0); (121,0); (122,0); (127,0); (176,0); (177,0); (178,0); (181,0);
   (182,0); (183,0); (203,0); (204,0); (205,0); (213,0); (222,0); (224,0); (225,0); (226,0);
   (227,0); (228,0); (229,0); (230,0); (244,0); (257,0); (259,0); (260,0)];
   [(94,2); (224,0)];
   [(100,2); (224,0)];
   [(106,2); (129,1); (223,0)];
   [(111,2); (224,0)];
   [(115,2); (224,0)];
   [(122,2); (224,0)];
   [(127,2); (174,0); (175,0); (254,0); (255,0)];
   [(207,0); (208,0); (209,0); (210,0); (211,0); (247,1)];
   [(207,0); (208,0); (209,0); (210,0); (211,0); (248,1)];
   [(207,0); (208,0); (209,0); (210,0); (211,0); (249,1)];
   [(207,0); (208,0); (209,0); (210,0); (211,0); (250,1)];
   [(207,0); (208,0); (209,0); (210,0); (211,0); (251,1)];
   [(207,0); (208,0); (209,0); (210,0); (211,0); (252,1)];
   [(207,0); (208,0); (209,0); (210,0); (211,0); (253,1)];
   [(207,0); (208,0); (209,0); (210,0); (211,0); (254,1)];
   [(207,0); (208,0); (209,0); (210,0); (211,0); (255,1)];
   [(207,0); (208,0); (209,0); (210,0); (211,0); (245,1)];
   [(207,0); (208,0); (209,0); (210,0); (211,0); (246,1)];
   [(34,2); (49,0); (50,0); (51,0); (52,0); (53,0); (54,0); (55,0); (56,0); (57,0); (58,0);
   (59,0); (60,0); (232,0); (233,0); (234,0); (235,0); (236,0); (237,0); (238,0); (239,0);
   (240,0); (241,0); (242,0); (243,0)];
   [(207,0); (208,0); (209,0); (210,0); (211,0); (217,1)];
   [(207,0); (208,0); (209,0); (210,0); (211,0); (263,1)];
   [(196,3); (225,0)];
   [(197,1); (267,0)];
   [(6,3); (10,0); (11,0); (12,0); (189,0); (261,0)];
   [(207,0); (208,0); (209,0); (210,0); (211,0); (216,1)];
   [(207,0); (208,0); (209,0); (210,0); (211,0); (219,1)];
   [(207,0); (208,0); (209,0); (210,0); (211,0); (220,1)];
   [(207,0); (208,0); (209,0); (210,0); (211,0); (221,1)];
   [(184,1); (217,0)];
   [(21,3); (25,0); (26,0); (27,0); (188,0); (189,0); (261,0)];
   [(43,3); (44,0); (45,0); (46,0); (47,0); (48,0); (224,0)];
   [(207,0); (208,0); (209,0); (210,0); (211,0); (224,1)];
   [(80,0); (81,1); (83,1); (224,0)];
   [(79,3); (258,0)];
   [(34,0); (35,0); (36,0); (37,0); (43,0); (61,0); (62,0); (63,0); (64,0); (65,0); (66,0);
   (67,0); (68,0); (69,0); (70,0); (71,0); (72,0); (73,0); (74,0); (75,0); (76,0); (77,0);
   (78,0); (79,0); (80,1); (85,0); (91,0); (92,0); (93,0); (94,0); (100,0); (106,0); (107,0);
   (111,0); (115,0); (121,0); (122,0); (127,0); (176,0); (177,0); (178,0); (181,0); (182,0);
   (183,0); (203,0); (204,0); (205,0); (213,0); (222,0); (225,0); (226,0); (227,0); (228,0);
   (229,0); (230,0); (244,0); (257,0); (259,0); (260,0)];
   [(86,0); (87,1); (89,1); (224,0)];
   [(85,3); (256,0)];
   [(34,0); (35,0); (36,0); (37,0); (43,0); (61,0); (62,0); (63,0); (64,0); (65,0); (66,0);
   (67,0); (68,0); (69,0); (70,0); (71,0); (72,0); (73,0); (74,0); (75,0); (76,0); (77,0);
   (78,0); (79,0); (85,0); (86,1); (91,0); (92,0); (93,0); (94,0); (100,0); (106,0); (107,0);
   (111,0); (115,0); (121,0); (122,0); (127,0); (176,0); (177,0); (178,0); (181,0); (182,0);
   (183,0); (203,0); (204,0); (205,0); (213,0); (222,0); (225,0); (226,0); (227,0); (228,0);
   (229,0); (230,0); (244,0); (257,0); (259,0); (260,0)];
   [(34,0); (35,0); (35,3); (36,0); (37,0); (43,0); (61,0); (62,0); (63,0); (64,0); (65,0);
   (66,0); (67,0); (68,0); (69,0); (70,0); (71,0); (72,0); (73,0); (74,0); (75,0); (76,0);
   (77,0); (78,0); (79,0); (85,0); (91,0); (92,0); (93,0); (94,0); (100,0); (106,0); (107,0);
   (111,0); (115,0); (121,0); (122,0); (127,0); (176,0); (177,0); (178,0); (181,0); (182,0);
   (183,0); (203,0); (204,0); (205,0); (213,0); (222,0); (225,0); (226,0); (227,0); (228,0);
   (229,0); (230,0); (244,0); (257,0); (259,0); (260,0)];
   [(207,0); (208,0); (209,0); (210,0); (211,0); (232,1)];
   [(207,0); (208,0); (209,0); (210,0); (211,0); (233,1)];
   [(207,0); (208,0); (209,0); (210,0); (211,0); (234,1)];
   [(207,0); (208,0); (209,0); (210,0); (211,0); (235,1)];
   [(207,0); (208,0); (209,0); (210,0); (211,0); (236,1)];
   [(207,0); (208,0); (209,0); (210,0); (211,0); (237,1)];
   [(207,0); (208,0); (209,0); (210,0); (211,0); (238,1)];
   [(207,0); (208,0); (209,0); (210,0); (211,0); (239,1)];
   [(207,0); (208,0); (209,0); (210,0); (211,0); (240,1)];
   [(207,0); (208,0); (209,0); (210,0); (211,0); (241,1)];
   [(207,0); (208,0); (209,0); (210,0); (211,0); (242,1)];
   [(207,0); (208,0); (209,0); (210,0); (211,0); (243,1)];
   [(107,3); (108,0); (109,1); (223,0); (224,0)];
   [(139,2); (140,0); (141,1); (247,0)];
   [(143,2); (144,0); (145,1); (248,0)];
   [(147,2); (148,0); (149,1); (249,0)];
   [(151,2); (152,0); (153,1); (250,0)];
   [(155,2); (156,0); (157,1); (251,0)];
   [(159,2); (160,0); (161,1); (252,0)];
   [(163,2); (164,0); (165,1); (253,0)];
   [(34,0); (35,0); (36,0); (37,0); (43,0); (61,0); (62,0); (63,0); (64,0); (65,0); (66,0);
   (67,0); (68,0); (69,0); (70,0); (71,0); (72,0); (73,0); (74,0); (75,0); (76,0); (77,0);
   (78,0); (79,0); (85,0); (91,0); (92,0); (93,0); (94,0); (100,0); (106,0); (107,0); (108,1);
   (111,0); (115,0); (121,0); (122,0); (127,0); (176,0); (177,0); (178,0); (181,0); (182,0);
   (183,0); (203,0); (204,0); (205,0); (213,0); (222,0); (225,0); (226,0); (227,0); (228,0);
   (229,0); (230,0); (244,0); (257,0); (259,0); (260,0)];
   [(34,0); (35,0); (36,0); (37,0); (43,0); (61,0); (62,0); (63,0); (64,0); (65,0); (66,0);
   (67,0); (68,0); (69,0); (70,0); (71,0); (72,0); (73,0); (74,0); (75,0); (76,0); (77,0);
   (78,0); (79,0); (85,0); (91,0); (92,0); (93,0); (94,0); (100,0); (106,0); (107,0); (111,0);
   (115,0); (121,0); (122,0); (127,0); (140,1); (176,0); (177,0); (178,0); (181,0); (182,0);
   (183,0); (203,0); (204,0); (205,0); (213,0); (222,0); (225,0); (226,0); (227,0); (228,0);
   (229,0); (230,0); (244,0); (257,0); (259,0); (260,0)];
   [(34,0); (35,0); (36,0); (37,0); (43,0); (61,0); (62,0); (63,0); (64,0); (65,0); (66,0);
   (67,0); (68,0); (69,0); (70,0); (71,0); (72,0); (73,0); (74,0); (75,0); (76,0); (77,0);
   (78,0); (79,0); (85,0); (91,0); (92,0); (93,0); (94,0); (100,0); (106,0); (107,0); (111,0);
   (115,0); (121,0); (122,0); (127,0); (144,1); (176,0); (177,0); (178,0); (181,0); (182,0);
   (183,0); (203,0); (204,0); (205,0); (213,0); (222,0); (225,0); (226,0); (227,0); (228,0);
   (229,0); (230,0); (244,0); (257,0); (259,0); (260,0)];
   [(34,0); (35,0); (36,0); (37,0); (43,0); (61,0); (62,0); (63,0); (64,0); (65,0); (66,0);
   (67,0); (68,0); (69,0); (70,0); (71,0); (72,0); (73,0); (74,0); (75,0); (76,0); (77,0);
   (78,0); (79,0); (85,0); (91,0); (92,0); (93,0); (94,0); (100,0); (106,0); (107,0); (111,0);
   (115,0); (121,0); (122,0); (127,0); (148,1); (176,0); (177,0); (178,0); (181,0); (182,0);
   (183,0); (203,0); (204,0); (205,0); (213,0); (222,0); (225,0); (226,0); (227,0); (228,0);
   (229,0); (230,0); (244,0); (257,0); (259,0); (260,0)];
   [(34,0); (35,0); (36,0); (37,0); (43,0); (61,0); (62,0); (63,0); (64,0); (65,0); (66,0);
   (67,0); (68,0); (69,0); (70,0); (71,0); (72,0); (73,0); (74,0); (75,0); (76,0); (77,0);
   (78,0); (79,0); (85,0); (91,0); (92,0); (93,0); (94,0); (100,0); (106,0); (107,0); (111,0);
   (115,0); (121,0); (122,0); (127,0); (152,1); (176,0); (177,0); (178,0); (181,0); (182,0);
   (183,0); (203,0); (204,0); (205,0); (213,0); (222,0); (225,0); (226,0); (227,0); (228,0);
   (229,0); (230,0); (244,0); (257,0); (259,0); (260,0)];
   [(34,0); (35,0); (36,0); (37,0); (43,0); (61,0); (62,0); (63,0); (64,0); (65,0); (66,0);
   (67,0); (68,0); (69,0); (70,0); (71,0); (72,0); (73,0); (74,0); (75,0); (76,0); (77,0);
   (78,0); (79,0); (85,0); (91,0); (92,0); (93,0); (94,0); (100,0); (106,0); (107,0); (111,0);
   (115,0); (121,0); (122,0); (127,0); (156,1); (176,0); (177,0); (178,0); (181,0); (182,0);
   (183,0); (203,0); (204,0); (205,0); (213,0); (222,0); (225,0); (226,0); (227,0); (228,0);
   (229,0); (230,0); (244,0); (257,0); (259,0); (260,0)];
   [(34,0); (35,0); (36,0); (37,0); (43,0); (61,0); (62,0); (63,0); (64,0); (65,0); (66,0);
   (67,0); (68,0); (69,0); (70,0); (71,0); (72,0); (73,0); (74,0); (75,0); (76,0); (77,0);
   (78,0); (79,0); (85,0); (91,0); (92,0); (93,0); (94,0); (100,0); (106,0); (107,0); (111,0);
   (115,0); (121,0); (122,0); (127,0); (160,1); (176,0); (177,0); (178,0); (181,0); (182,0);
   (183,0); (203,0); (204,0); (205,0); (213,0); (222,0); (225,0); (226,0); (227,0); (228,0);
   (229,0); (230,0); (244,0); (257,0); (259,0); (260,0)];
   [(34,0); (35,0); (36,0); (37,0); (43,0); (61,0); (62,0); (63,0); (64,0); (65,0); (66,0);
   (67,0); (68,0); (69,0); (70,0); (71,0); (72,0); (73,0); (74,0); (75,0); (76,0); (77,0);
   (78,0); (79,0); (85,0); (91,0); (92,0); (93,0); (94,0); (100,0); (106,0); (107,0); (111,0);
   (115,0); (121,0); (122,0); (127,0); (164,1); (176,0); (177,0); (178,0); (181,0); (182,0);
   (183,0); (203,0); (204,0); (205,0); (213,0); (222,0); (225,0); (226,0); (227,0); (228,0);
   (229,0); (230,0); (244,0); (257,0); (259,0); (260,0)];
   [(38,0); (39,1); (41,1); (224,0)];
   [(37,3); (223,0)];
   [(34,0); (35,0); (36,0); (37,0); (38,1); (43,0); (61,0); (62,0); (63,0); (64,0); (65,0);
   (66,0); (67,0); (68,0); (69,0); (70,0); (71,0); (72,0); (73,0); (74,0); (75,0); (76,0);
   (77,0); (78,0); (79,0); (85,0); (91,0); (92,0); (93,0); (94,0); (100,0); (106,0); (107,0);
   (111,0); (115,0); (121,0); (122,0); (127,0); (176,0); (177,0); (178,0); (181,0); (182,0);
   (183,0); (203,0); (204,0); (205,0); (213,0); (222,0); (225,0); (226,0); (227,0); (228,0);
   (229,0); (230,0); (244,0); (257,0); (259,0); (260,0)];
   [(34,0); (35,0); (36,0); (37,0); (43,0); (61,0); (62,0); (63,0); (64,0); (65,0); (66,0);
   (67,0); (68,0); (69,0); (70,0); (71,0); (72,0); (73,0); (74,0); (75,0); (76,0); (77,0);
   (78,0); (79,0); (85,0); (91,0); (92,0); (92,3); (93,0); (94,0); (100,0); (106,0); (107,0);
   (111,0); (115,0); (121,0); (122,0); (127,0); (176,0); (177,0); (178,0); (181,0); (182,0);
   (183,0); (203,0); (204,0); (205,0); (213,0); (222,0); (225,0); (226,0); (227,0); (228,0);
   (229,0); (230,0); (244,0); (257,0); (259,0); (260,0)];
   [(34,0); (35,0); (36,0); (37,0); (43,0); (61,0); (62,0); (63,0); (64,0); (65,0); (66,0);
   (67,0); (68,0); (69,0); (70,0); (71,0); (72,0); (73,0); (74,0); (75,0); (76,0); (77,0);
   (78,0); (79,0); (85,0); (91,0); (92,0); (93,0); (94,0); (94,3); (100,0); (106,0); (107,0);
   (111,0); (115,0); (121,0); (122,0); (127,0); (176,0); (177,0); (178,0); (181,0); (182,0);
   (183,0); (203,0); (204,0); (205,0); (213,0); (222,0); (225,0); (226,0); (227,0); (228,0);
   (229,0); (230,0); (244,0); (257,0); (259,0); (260,0)];
   [(34,0); (35,0); (36,0); (37,0); (43,0); (61,0); (62,0); (63,0); (64,0); (65,0); (66,0);
   (67,0); (68,0); (69,0); (70,0); (71,0); (72,0); (73,0); (74,0); (75,0); (76,0); (77,0);
   (78,0); (79,0); (85,0); (91,0); (92,0); (93,0); (94,0); (100,0); (100,3); (106,0); (107,0);
   (111,0); (115,0); (121,0); (122,0); (127,0); (176,0); (177,0); (178,0); (181,0); (182,0);
   (183,0); (203,0); (204,0); (205,0); (213,0); (222,0); (225,0); (226,0); (227,0); (228,0);
   (229,0); (230,0); (244,0); (257,0); (259,0); (260,0)];
   [(207,0); (208,0); (209,0); (210,0); (211,0); (223,1)];
   [(34,0); (35,0); (36,0); (37,0); (43,0); (61,0); (62,0); (63,0); (64,0); (65,0); (66,0);
   (67,0); (68,0); (69,0); (70,0); (71,0); (72,0); (73,0); (74,0); (75,0); (76,0); (77,0);
   (78,0); (79,0); (85,0); (91,0); (92,0); (93,0); (94,0); (100,0); (106,0); (107,0); (111,0);
   (111,3); (115,0); (121,0); (122,0); (127,0); (176,0); (177,0); (178,0); (181,0); (182,0);
   (183,0); (203,0); (204,0); (205,0); (213,0); (222,0); (225,0); (226,0); (227,0); (228,0);
   (229,0); (230,0); (244,0); (257,0); (259,0); (260,0)];
   [(34,0); (35,0); (36,0); (37,0); (43,0); (61,0); (62,0); (63,0); (64,0); (65,0); (66,0);
   (67,0); (68,0); (69,0); (70,0); (71,0); (72,0); (73,0); (74,0); (75,0); (76,0); (77,0);
   (78,0); (79,0); (85,0); (91,0); (92,0); (93,0); (94,0); (100,0); (106,0); (107,0); (111,0);
   (115,0); (115,3); (121,0); (122,0); (127,0); (176,0); (177,0); (178,0); (181,0); (182,0);
   (183,0); (203,0); (204,0); (205,0); (213,0); (222,0); (225,0); (226,0); (227,0); (228,0);
   (229,0); (230,0); (244,0); (257,0); (259,0); (260,0)];
   [(34,0); (35,0); (36,0); (37,0); (43,0); (61,0); (62,0); (63,0); (64,0); (65,0); (66,0);
   (67,0); (68,0); (69,0); (70,0); (71,0); (72,0); (73,0); (74,0); (75,0); (76,0); (77,0);
   (78,0); (79,0); (85,0); (91,0); (92,0); (93,0); (94,0); (100,0); (106,0); (107,0); (111,0);
   (115,0); (121,0); (122,0); (122,3); (123,0); (124,0); (127,0); (132,0); (133,0); (134,0);
   (135,0); (136,0); (137,0); (138,0); (139,0); (143,0); (147,0); (151,0); (155,0); (159,0);
   (163,0); (176,0); (177,0); (178,0); (181,0); (182,0); (183,0); (203,0); (204,0); (205,0);
   (213,0); (222,0); (225,0); (226,0); (227,0); (228,0); (229,0); (230,0); (244,0); (257,0);
   (259,0); (260,0)];
   [(34,0); (35,0); (36,0); (37,0); (43,0); (61,0); (62,0); (63,0); (64,0); (65,0); (66,0);
   (67,0); (68,0); (69,0); (70,0); (71,0); (72,0); (73,0); (74,0); (75,0); (76,0); (77,0);
   (78,0); (79,0); (85,0); (91,0); (92,0); (93,0); (94,0); (100,0); (106,0); (107,0); (111,0);
   (115,0); (121,0); (122,0); (127,0); (127,3); (130,0); (131,0); (132,0); (133,0); (134,0);
   (135,0); (136,0); (137,0); (138,0); (139,0); (143,0); (147,0); (151,0); (155,0); (159,0);
   (163,0); (176,0); (177,0); (178,0); (181,0); (182,0); (183,0); (203,0); (204,0); (205,0);
   (213,0); (222,0); (225,0); (226,0); (227,0); (228,0); (229,0); (230,0); (244,0); (257,0);
   (259,0); (260,0)];
   [(34,0); (34,3); (35,0); (36,0); (37,0); (43,0); (61,0); (62,0); (63,0); (64,0); (65,0);
   (66,0); (67,0); (68,0); (69,0); (70,0); (71,0); (72,0); (73,0); (74,0); (75,0); (76,0);
   (77,0); (78,0); (79,0); (85,0); (91,0); (92,0); (93,0); (94,0); (100,0); (106,0); (107,0);
   (111,0); (115,0); (121,0); (122,0); (127,0); (176,0); (177,0); (178,0); (181,0); (182,0);
   (183,0); (203,0); (204,0); (205,0); (213,0); (222,0); (225,0); (226,0); (227,0); (228,0);
   (229,0); (230,0); (244,0); (257,0); (259,0); (260,0)];
   [(207,0); (208,0); (209,0); (210,0); (211,0); (267,1)];
   [(197,2); (198,0); (199,0); (200,0); (263,0)];
   [(207,0); (208,0); (209,0); (210,0); (211,0); (261,1)];
   [(189,1); (262,0)];
   [(184,2); (218,0)];
   [(44,0); (45,1); (47,1); (224,0)];
   [(43,4); (223,0)];
   [(34,0); (35,0); (36,0); (37,0); (43,0); (44,1); (61,0); (62,0); (63,0); (64,0); (65,0);
   (66,0); (67,0); (68,0); (69,0); (70,0); (71,0); (72,0); (73,0); (74,0); (75,0); (76,0);
   (77,0); (78,0); (79,0); (85,0); (91,0); (92,0); (93,0); (94,0); (100,0); (106,0); (107,0);
   (111,0); (115,0); (121,0); (122,0); (127,0); (176,0); (177,0); (178,0); (181,0); (182,0);
   (183,0); (203,0); (204,0); (205,0); (213,0); (222,0); (225,0); (226,0); (227,0); (228,0);
   (229,0); (230,0); (244,0); (257,0); (259,0); (260,0)];
   [(207,0); (208,0); (209,0); (210,0); (211,0); (258,1)];
   [(207,0); (208,0); (209,0); (210,0); (211,0); (256,1)];
   [(35,4); (223,0)];
   [(92,4); (223,0)];
   [(94,4); (95,0); (96,0); (97,0); (98,0); (99,0); (224,0)];
   [(100,4); (101,0); (102,0); (103,0); (104,0); (105,0); (224,0)];
   [(111,4); (112,0); (113,0); (114,0); (224,0)];
   [(115,4); (116,0); (117,0); (118,0); (119,0); (120,0); (224,0)];
   [(123,1); (139,1); (140,0); (141,0); (142,0); (143,1); (144,0); (145,0); (146,0); (147,1);
   (148,0); (149,0); (150,0); (151,1); (152,0); (153,0); (154,0); (155,1); (156,0); (157,0);
   (158,0); (159,1); (160,0); (161,0); (162,0); (163,1); (164,0); (165,0); (166,0); (247,0);
   (248,0); (249,0); (250,0); (251,0); (252,0); (253,0)];
   [(122,4); (224,0)];
   [(130,1); (139,1); (140,0); (141,0); (142,0); (143,1); (144,0); (145,0); (146,0); (147,1);
   (148,0); (149,0); (150,0); (151,1); (152,0); (153,0); (154,0); (155,1); (156,0); (157,0);
   (158,0); (159,1); (160,0); (161,0); (162,0); (163,1); (164,0); (165,0); (166,0); (247,0);
   (248,0); (249,0); (250,0); (251,0); (252,0); (253,0)];
   [(127,4); (223,0)];
   [(34,4); (231,0)];
   [(198,1); (268,0)];
   [(207,0); (208,0); (209,0); (210,0); (211,0); (262,1)];
   [(189,2); (190,0); (194,0); (195,0); (263,0)];
   [(207,0); (208,0); (209,0); (210,0); (211,0); (218,1)];
   [(95,0); (96,1); (98,1); (224,0)];
   [(94,5); (223,0)];
   [(34,0); (35,0); (36,0); (37,0); (43,0); (61,0); (62,0); (63,0); (64,0); (65,0); (66,0);
   (67,0); (68,0); (69,0); (70,0); (71,0); (72,0); (73,0); (74,0); (75,0); (76,0); (77,0);
   (78,0); (79,0); (85,0); (91,0); (92,0); (93,0); (94,0); (95,1); (100,0); (106,0); (107,0);
   (111,0); (115,0); (121,0); (122,0); (127,0); (176,0); (177,0); (178,0); (181,0); (182,0);
   (183,0); (203,0); (204,0); (205,0); (213,0); (222,0); (225,0); (226,0); (227,0); (228,0);
   (229,0); (230,0); (244,0); (257,0); (259,0); (260,0)];
   [(101,0); (102,1); (104,1); (224,0)];
   [(100,5); (223,0)];
   [(34,0); (35,0); (36,0); (37,0); (43,0); (61,0); (62,0); (63,0); (64,0); (65,0); (66,0);
   (67,0); (68,0); (69,0); (70,0); (71,0); (72,0); (73,0); (74,0); (75,0); (76,0); (77,0);
   (78,0); (79,0); (85,0); (91,0); (92,0); (93,0); (94,0); (100,0); (101,1); (106,0); (107,0);
   (111,0); (115,0); (121,0); (122,0); (127,0); (176,0); (177,0); (178,0); (181,0); (182,0);
   (183,0); (203,0); (204,0); (205,0); (213,0); (222,0); (225,0); (226,0); (227,0); (228,0);
   (229,0); (230,0); (244,0); (257,0); (259,0); (260,0)];
   [(111,5); (112,0); (113,1); (223,0); (224,0)];
   [(34,0); (35,0); (36,0); (37,0); (43,0); (61,0); (62,0); (63,0); (64,0); (65,0); (66,0);
   (67,0); (68,0); (69,0); (70,0); (71,0); (72,0); (73,0); (74,0); (75,0); (76,0); (77,0);
   (78,0); (79,0); (85,0); (91,0); (92,0); (93,0); (94,0); (100,0); (106,0); (107,0); (111,0);
   (112,1); (115,0); (121,0); (122,0); (127,0); (176,0); (177,0); (178,0); (181,0); (182,0);
   (183,0); (203,0); (204,0); (205,0); (213,0); (222,0); (225,0); (226,0); (227,0); (228,0);
   (229,0); (230,0); (244,0); (257,0); (259,0); (260,0)];
   [(116,0); (117,1); (119,1); (224,0)];
   [(115,5); (223,0)];
   [(34,0); (35,0); (36,0); (37,0); (43,0); (61,0); (62,0); (63,0); (64,0); (65,0); (66,0);
   (67,0); (68,0); (69,0); (70,0); (71,0); (72,0); (73,0); (74,0); (75,0); (76,0); (77,0);
   (78,0); (79,0); (85,0); (91,0); (92,0); (93,0); (94,0); (100,0); (106,0); (107,0); (111,0);
   (115,0); (116,1); (121,0); (122,0); (127,0); (176,0); (177,0); (178,0); (181,0); (182,0);
   (183,0); (203,0); (204,0); (205,0); (213,0); (222,0); (225,0); (226,0); (227,0); (228,0);
   (229,0); (230,0); (244,0); (257,0); (259,0); (260,0)];
   [(34,0); (35,0); (36,0); (37,0); (43,0); (61,0); (62,0); (63,0); (64,0); (65,0); (66,0);
   (67,0); (68,0); (69,0); (70,0); (71,0); (72,0); (73,0); (74,0); (75,0); (76,0); (77,0);
   (78,0); (79,0); (85,0); (91,0); (92,0); (93,0); (94,0); (100,0); (106,0); (107,0); (111,0);
   (115,0); (121,0); (122,0); (122,5); (125,0); (126,0); (127,0); (132,0); (133,0); (134,0);
   (135,0); (136,0); (137,0); (138,0); (139,0); (143,0); (147,0); (151,0); (155,0); (159,0);
   (163,0); (176,0); (177,0); (178,0); (181,0); (182,0); (183,0); (203,0); (204,0); (205,0);
   (213,0); (222,0); (225,0); (226,0); (227,0); (228,0); (229,0); (230,0); (244,0); (257,0);
   (259,0); (260,0)];
   [(207,0); (208,0); (209,0); (210,0); (211,0); (231,1)];
   [(207,0); (208,0); (209,0); (210,0); (211,0); (268,1)];
   [(189,3); (261,0)];
   [(190,1); (264,0)];
   [(125,1); (139,1); (140,0); (141,0); (142,0); (143,1); (144,0); (145,0); (146,0); (147,1);
   (148,0); (149,0); (150,0); (151,1); (152,0); (153,0); (154,0); (155,1); (156,0); (157,0);
   (158,0); (159,1); (160,0); (161,0); (162,0); (163,1); (164,0); (165,0); (166,0); (247,0);
   (248,0); (249,0); (250,0); (251,0); (252,0); (253,0)];
   [(122,6); (223,0)];
   [(207,0); (208,0); (209,0); (210,0); (211,0); (264,1)];
   [(190,2); (191,0); (192,0); (193,0); (263,0)];
   [(191,1); (265,0)];
   [(207,0); (208,0); (209,0); (210,0); (211,0); (265,1)]
  ]%nat.

(* A weight for every grammar symbol: each production weighs at least one more
   than its right-hand side. *)
Definition weights : list Z :=
   [1; (-8); (-8); (-8); (-8); (-8); (-8); (-8); (-8); (-8); (-8); (-8); (-8); (-8); (-8); (-8);
   (-8); (-8); (-8); (-8); (-8); (-8); (-8); (-8); (-8); (-8); (-8); (-8); (-8); (-8); (-8);
   (-8); (-8); (-8); (-8); (-8); (-8); (-8); (-8); (-8); (-8); (-8); (-8); (-8); (-8); (-8);
   (-8); (-8); (-8); (-8); (-8); (-8); (-8); (-8); (-8); (-8); (-8); (-8); (-8); 1; (-6); (-6);
   (-6); (-6); (-6); (-6); (-6); (-6); (-6); (-6); (-6); (-6); (-6); (-6); (-6); (-6); (-6);
   (-6); (-6); (-6); (-6); (-6); (-6); (-6); (-6); (-6); (-6); (-6); (-6); (-6); (-6); (-6);
   (-6); (-6); (-6); (-6); (-6); (-6); (-6); (-6); (-6); (-6); (-6); (-6); (-6); (-6); (-6);
   (-6); (-6); (-6); (-6); (-6); (-6); (-6); (-6); (-6); (-6); 1; (-6); (-7); (-1); (-5); 1;
   (-10); 1; (-11); 1; (-10); 1; (-11); (-6); (-7); (-6); (-7); (-6); (-7); (-6); (-7); (-6);
   (-7); (-6); (-7); (-6); (-7); (-7); (-7); (-7); (-7); (-7); (-7); (-7); (-1); (-1); (-1);
   (-1); (-5); (-23); 1; (-6); (-7); (-5); (-6); (-7); (-5); (-6); (-7); (-6); 1; (-6); (-7);
   (-5); 1; (-6); (-7); (-5); (-6); (-5); 1; (-6); (-7); (-5); 1; (-6); (-7); (-5); (-10);
   (-11); (-11); (-5); (-23); (-23); (-18); (-17); (-9); (-4); (-11); (-9); 1; (-6); (-7); (-4);
   1; (-6); (-7); (-9); (-20); (-5); (-2); 1; (-4); (-2); 1; (-14); (-15); 1; (-4); (-2); 1;
   (-4); (-2); 1; (-15); (-16); 1; (-4); (-5); (-2); (-16); (-3); (-5); 1; (-15); (-16); (-3)].

(* For every state an upper bound of the weight of a stack with that state on
   top. *)
Definition heights : list Z :=
   [0; (-6); 1; (-2); 2; (-7); (-5); (-1); (-14); 0; 0; 0; 0; (-6); (-6); (-2); (-6); (-6);
   (-3); (-3); (-3); (-6); (-6); (-6); (-6); (-6); (-4); (-4); (-4); (-4); (-13); (-11); (-8);
   (-6); (-8); (-6); (-8); (-6); (-8); (-6); (-8); (-5); (-11); (-9); (-9); (-9); (-5); (-6);
   (-13); (-9); (-9); (-9); (-10); (-9); (-9); (-9); (-5); (-12); (-12); (-12); (-12); (-12);
   (-12); (-12); (-12); (-12); (-12); (-12); (-6); (-12); (-19); (-10); (-17); (-5); (-14);
   (-14); (-14); (-14); (-12); (-5); (-10); (-13); (-11); (-4); (-11); (-11); (-4); (-11);
   (-11); (-14); (-14); (-14); (-14); (-14); (-14); (-14); (-14); (-14); (-14); (-14); (-14);
   (-12); (-12); (-12); (-12); (-12); (-12); (-12); (-12); (-12); (-12); (-12); (-12); (-12);
   (-12); (-12); (-12); (-19); (-12); (-19); (-15); (-15); (-15); (-17); (-15); (-15); (-15);
   (-10); (-11); (-25); (-23); (-13); (-11); (-18); (-16); (-9); (-16); (-12); (-12); (-13);
   (-17); (-17); (-17); (-17); (-17); (-17); (-16); (-12); (-11); (-13); (-29); (-19); (-17);
   (-26); (-23); (-16); (-23); (-23); (-16); (-23); (-23); (-23); (-23); (-16); (-23); (-22);
   (-21); (-37); (-16); (-23); (-24); (-23); (-31); (-29); (-35); (-43)].

(* The least number of characters of a text of each grammar symbol. *)
Definition shortest : list Z :=
   [0; 1; 1; 1; 3; 3; 2; 3; 1; 2; 1; 1; 1; 1; 2; 1; 1; 1; 1; 1; 1; 2; 2; 2; 2; 1; 1; 1; 1; 1; 2;
   1; 1; 3; 1; 2; 3; 3; 3; 3; 3; 3; 3; 3; 3; 3; 3; 1; 1; 1; 1; 1; 1; 1; 1; 1; 1; 1; 1; 2; 1; 2;
   1; 1; 2; 1; 1; 1; 1; 1; 1; 1; 1; 1; 1; 1; 1; 2; 2; 2; 2; 1; 1; 1; 2; 3; 3; 3; 3; 3; 3; 3; 3;
   3; 3; 3; 3; 1; 1; 1; 1; 2; 1; 1; 1; 1; 1; 3; 3; 3; 1; 1; 2; 1; 1; 1; 1; 0; 1; 1; 2; 1; 0; 3;
   0; 2; 0; 3; 0; 2; 2; 2; 2; 2; 3; 3; 3; 3; 3; 3; 3; 3; 2; 2; 3; 4; 4; 4; 4; 3; 3; 1; 1; 1; 1;
   1; 5; 0; 2; 2; 1; 2; 2; 1; 2; 2; 3; 0; 2; 2; 1; 0; 2; 2; 1; 3; 2; 0; 2; 2; 1; 0; 2; 2; 1; 3;
   3; 3; 3; 5; 5; 5; 5; 3; 3; 2; 2; 0; 2; 2; 1; 0; 2; 2; 2; 7; 3; 1; 0; 3; 1; 0; 3; 3; 0; 3; 1;
   0; 3; 1; 0; 3; 3; 0; 3; 3; 1; 4; 1; 2; 0; 3; 3; 2].

(* For every state a bound of the difference between the number of stack cells
   and the number of characters they stand for. *)
Definition excess : list Z :=
   [0; 4; 1; 0; 2; 2; 1; 2; (-1); 2; 2; 2; 2; 2; 2; 2; 2; 2; 2; 2; 1; 2; 2; 1; 1; 2; 2; 2; 2; 2;
   1; 1; 2; 2; 2; 2; 2; 2; 2; 2; 2; 2; 2; 2; 2; 2; 2; 2; 1; 1; 2; 2; 0; 2; 2; 2; 2; 2; 1; 1; 1;
   1; 2; 2; 2; 2; 2; 2; 2; 2; 3; 2; 1; 3; 1; 0; 0; 0; 1; 3; 2; 2; 1; 3; 2; 1; 3; 2; 0; 0; 0; 0;
   0; 0; 0; 0; 0; 0; 0; 0; 0; 1; 1; 0; 0; 0; 0; 1; 1; 2; 2; 1; 1; 1; 1; 2; 2; 0; 2; 1; 1; 2; 2;
   3; 2; 2; 2; 2; 0; 0; 0; 4; 3; 1; 1; 3; 2; 3; 3; 0; 1; 2; 2; 2; 2; 2; 2; 2; 2; 0; 0; 3; 3; 1;
   1; 3; 2; 1; 3; 2; 1; 2; 1; 3; 2; 2; 0; 0; 4; 3; 2; 2; 2; 2; 2; 2].

(* For the states that are only reached near the bottom of the stack, a bound of
   their depth; -1 for the others. *)
Definition shallow : list Z :=
   [0; (-1); 1; 2; 2; (-1); 2; 3; 3; 3; 3; 3; 3; (-1); (-1); (-1); (-1); (-1); (-1); (-1); (-1);
   (-1); (-1); (-1); (-1); (-1); (-1); (-1); (-1); (-1); 3; 3; 4; 4; (-1); 4; 4; 4; 4; 4; (-1);
   (-1); (-1); (-1); (-1); (-1); (-1); (-1); (-1); (-1); (-1); (-1); (-1); (-1); (-1); (-1);
   (-1); (-1); (-1); (-1); (-1); (-1); (-1); (-1); (-1); (-1); (-1); (-1); (-1); (-1); 10; 4; 4;
   5; 5; 5; 5; 5; 5; 5; (-1); (-1); (-1); (-1); (-1); (-1); (-1); (-1); (-1); (-1); (-1); (-1);
   (-1); (-1); (-1); (-1); (-1); (-1); (-1); (-1); (-1); (-1); (-1); (-1); (-1); (-1); (-1);
   (-1); (-1); (-1); (-1); (-1); (-1); (-1); (-1); (-1); (-1); (-1); (-1); (-1); (-1); (-1);
   (-1); (-1); (-1); (-1); (-1); (-1); (-1); 5; 5; 9; 6; 6; (-1); (-1); (-1); (-1); (-1); (-1);
   (-1); (-1); (-1); (-1); (-1); (-1); (-1); (-1); (-1); (-1); 6; 7; 7; 7; (-1); (-1); (-1);
   (-1); (-1); (-1); (-1); (-1); (-1); (-1); (-1); (-1); (-1); 7; 8; 8; (-1); (-1); 9; 9; 10;
   11].
