(* The grammar of Narsese, independently of the parser's automaton: the
   productions, written out from their definition strings and from
   narsese.par, the lexemes of the terminals, and derivation trees. *)
From Coq Require Import ZArith String Ascii List Bool.
From Verif Require Import Parser.
Import ListNotations.
Open Scope string_scope.
Open Scope Z_scope.

(* Narsese/Parser/narsese.h, productions, lines 1036-1305: the definition
   strings, with symbols replaced by their numbers in the table symbols
   (lines 797-1030).  Terminals are 0..58, nonterminals 59..233; 59 is the
   goal.  Each production carries the name it gives to its node of the syntax
   tree, empty for none. *)
Definition rules : list (Z * list Z * string) :=
  [
   (* 0  &embedded_0 : budget *)
   (231, [232], "");
   (* 1  &embedded_0? : &embedded_0 *)
   (230, [231], "");
   (* 2  &embedded_0? :  *)
   (230, [], "");
   (* 3  task : &embedded_0? sentence *)
   (233, [230; 229], "task");
   (* 4  &embedded_1 : term_nonvar *)
   (226, [228], "");
   (* 5  &embedded_1 : statement *)
   (226, [227], "");
   (* 6  sentence : &embedded_1 .' &embedded_2? &embedded_3? *)
   (229, [226; 116; 223; 220], "judgement");
   (* 7  &embedded_2 : tense *)
   (224, [225], "");
   (* 8  &embedded_2? : &embedded_2 *)
   (223, [224], "");
   (* 9  &embedded_2? :  *)
   (223, [], "");
   (* 10  &embedded_3 : truth *)
   (221, [222], "");
   (* 11  &embedded_3? : &embedded_3 *)
   (220, [221], "");
   (* 12  &embedded_3? :  *)
   (220, [], "");
   (* 13  &embedded_4 : term_nonvar *)
   (219, [228], "");
   (* 14  &embedded_4 : statement *)
   (219, [227], "");
   (* 15  sentence : &embedded_4 ?' &embedded_5? *)
   (229, [219; 115; 217], "question");
   (* 16  &embedded_5 : tense *)
   (218, [225], "");
   (* 17  &embedded_5? : &embedded_5 *)
   (217, [218], "");
   (* 18  &embedded_5? :  *)
   (217, [], "");
   (* 19  &embedded_6 : term_nonvar *)
   (216, [228], "");
   (* 20  &embedded_6 : statement *)
   (216, [227], "");
   (* 21  sentence : &embedded_6 !' &embedded_7? &embedded_8? *)
   (229, [216; 114; 214; 211], "goal");
   (* 22  &embedded_7 : tense *)
   (215, [225], "");
   (* 23  &embedded_7? : &embedded_7 *)
   (214, [215], "");
   (* 24  &embedded_7? :  *)
   (214, [], "");
   (* 25  &embedded_8 : desire *)
   (212, [213], "");
   (* 26  &embedded_8? : &embedded_8 *)
   (211, [212], "");
   (* 27  &embedded_8? :  *)
   (211, [], "");
   (* 28  &embedded_9 : term_nonvar *)
   (210, [228], "");
   (* 29  &embedded_9 : statement *)
   (210, [227], "");
   (* 30  sentence : &embedded_9 @' &embedded_10? *)
   (229, [210; 113; 208], "quest");
   (* 31  &embedded_10 : tense *)
   (209, [225], "");
   (* 32  &embedded_10? : &embedded_10 *)
   (208, [209], "");
   (* 33  &embedded_10? :  *)
   (208, [], "");
   (* 34  &embedded_11 : <' term copula term >' *)
   (205, [98; 207; 206; 207; 97], "");
   (* 35  &embedded_11 : (' term copula term )' *)
   (205, [106; 207; 206; 207; 105], "");
   (* 36  statement : &embedded_11 *)
   (227, [205], "statement");
   (* 37  statement : (' op &embedded_12* )' *)
   (227, [106; 204; 201; 105], "statement_operation1");
   (* 38  &embedded_12 : ,' term *)
   (203, [104; 207], "");
   (* 39  &embedded_12+ : &embedded_12+ &embedded_12 *)
   (202, [202; 203], "");
   (* 40  &embedded_12+ : &embedded_12 *)
   (202, [203], "");
   (* 41  &embedded_12* : &embedded_12+ *)
   (201, [202], "");
   (* 42  &embedded_12* :  *)
   (201, [], "");
   (* 43  statement : word (' term &embedded_13* )' *)
   (227, [200; 106; 207; 197; 105], "statement_operation2");
   (* 44  &embedded_13 : ,' term *)
   (199, [104; 207], "");
   (* 45  &embedded_13+ : &embedded_13+ &embedded_13 *)
   (198, [198; 199], "");
   (* 46  &embedded_13+ : &embedded_13 *)
   (198, [199], "");
   (* 47  &embedded_13* : &embedded_13+ *)
   (197, [198], "");
   (* 48  &embedded_13* :  *)
   (197, [], "");
   (* 49  copula : -->' *)
   (206, [96], "inheritance");
   (* 50  copula : <->' *)
   (206, [95], "similarity");
   (* 51  copula : {--' *)
   (206, [94], "instance");
   (* 52  copula : --]' *)
   (206, [93], "property");
   (* 53  copula : {-]' *)
   (206, [92], "instance_property");
   (* 54  copula : ==>' *)
   (206, [91], "implication");
   (* 55  copula : =/>' *)
   (206, [90], "predictive_implication");
   (* 56  copula : =|>' *)
   (206, [89], "concurrent_implication");
   (* 57  copula : =\\>' *)
   (206, [88], "retrospective_implication");
   (* 58  copula : <=>' *)
   (206, [87], "equivalence");
   (* 59  copula : </>' *)
   (206, [86], "predictive_equivalence");
   (* 60  copula : <|>' *)
   (206, [85], "concurrent_equivalence");
   (* 61  term : variable *)
   (207, [196], "variable_term");
   (* 62  term : term_nonvar *)
   (207, [228], "");
   (* 63  term_nonvar : interval *)
   (228, [195], "");
   (* 64  term_nonvar : word *)
   (228, [200], "atom_term");
   (* 65  term_nonvar : compound_term *)
   (228, [194], "compound_term");
   (* 66  term_nonvar : statement *)
   (228, [227], "statement_term");
   (* 67  term_nonvar : op *)
   (228, [204], "");
   (* 68  op : ^' word *)
   (204, [99; 200], "operation");
   (* 69  interval : +' integer' *)
   (195, [68; 111], "interval");
   (* 70  compound_term : set *)
   (194, [193], "");
   (* 71  compound_term : multi *)
   (194, [192], "");
   (* 72  compound_term : single *)
   (194, [191], "");
   (* 73  compound_term : ext_image *)
   (194, [190], "");
   (* 74  compound_term : int_image *)
   (194, [189], "");
   (* 75  compound_term : negation *)
   (194, [188], "");
   (* 76  &embedded_14 : int_set *)
   (185, [187], "");
   (* 77  &embedded_14 : ext_set *)
   (185, [186], "");
   (* 78  set : &embedded_14 *)
   (193, [185], "set");
   (* 79  int_set : con_int_set term &embedded_15* ]' *)
   (187, [184; 207; 181; 70], "");
   (* 80  &embedded_15 : ,' term *)
   (183, [104; 207], "");
   (* 81  &embedded_15+ : &embedded_15+ &embedded_15 *)
   (182, [182; 183], "");
   (* 82  &embedded_15+ : &embedded_15 *)
   (182, [183], "");
   (* 83  &embedded_15* : &embedded_15+ *)
   (181, [182], "");
   (* 84  &embedded_15* :  *)
   (181, [], "");
   (* 85  ext_set : con_ext_set term &embedded_16* }' *)
   (186, [180; 207; 177; 72], "");
   (* 86  &embedded_16 : ,' term *)
   (179, [104; 207], "");
   (* 87  &embedded_16+ : &embedded_16+ &embedded_16 *)
   (178, [178; 179], "");
   (* 88  &embedded_16+ : &embedded_16 *)
   (178, [179], "");
   (* 89  &embedded_16* : &embedded_16+ *)
   (177, [178], "");
   (* 90  &embedded_16* :  *)
   (177, [], "");
   (* 91  &embedded_17 : con_negation term *)
   (175, [176; 207], "");
   (* 92  &embedded_17 : (' con_negation ,' term )' *)
   (175, [106; 176; 104; 207; 105], "");
   (* 93  negation : &embedded_17 *)
   (188, [175], "negation");
   (* 94  int_image : (' con_int_image ,' term &embedded_18* )' *)
   (189, [106; 174; 104; 207; 171; 105], "int_image");
   (* 95  &embedded_18 : ,' term *)
   (173, [104; 207], "");
   (* 96  &embedded_18+ : &embedded_18+ &embedded_18 *)
   (172, [172; 173], "");
   (* 97  &embedded_18+ : &embedded_18 *)
   (172, [173], "");
   (* 98  &embedded_18* : &embedded_18+ *)
   (171, [172], "");
   (* 99  &embedded_18* :  *)
   (171, [], "");
   (* 100  ext_image : (' con_ext_image ,' term &embedded_19* )' *)
   (190, [106; 170; 104; 207; 167; 105], "ext_image");
   (* 101  &embedded_19 : ,' term *)
   (169, [104; 207], "");
   (* 102  &embedded_19+ : &embedded_19+ &embedded_19 *)
   (168, [168; 169], "");
   (* 103  &embedded_19+ : &embedded_19 *)
   (168, [169], "");
   (* 104  &embedded_19* : &embedded_19+ *)
   (167, [168], "");
   (* 105  &embedded_19* :  *)
   (167, [], "");
   (* 106  multi : (' multi_infix_expr )' *)
   (192, [106; 166; 105], "multi_infix");
   (* 107  multi : (' term &embedded_20+ )' *)
   (192, [106; 207; 164; 105], "multi_prefix_product");
   (* 108  &embedded_20 : ,' term *)
   (165, [104; 207], "");
   (* 109  &embedded_20+ : &embedded_20+ &embedded_20 *)
   (164, [164; 165], "");
   (* 110  &embedded_20+ : &embedded_20 *)
   (164, [165], "");
   (* 111  &embedded_23 : (' con_multi ,' term &embedded_21+ )' *)
   (156, [106; 163; 104; 207; 161; 105], "");
   (* 112  &embedded_21 : ,' term *)
   (162, [104; 207], "");
   (* 113  &embedded_21+ : &embedded_21+ &embedded_21 *)
   (161, [161; 162], "");
   (* 114  &embedded_21+ : &embedded_21 *)
   (161, [162], "");
   (* 115  &embedded_23 : (' con_product ,' term &embedded_22* )' *)
   (156, [106; 160; 104; 207; 157; 105], "");
   (* 116  &embedded_22 : ,' term *)
   (159, [104; 207], "");
   (* 117  &embedded_22+ : &embedded_22+ &embedded_22 *)
   (158, [158; 159], "");
   (* 118  &embedded_22+ : &embedded_22 *)
   (158, [159], "");
   (* 119  &embedded_22* : &embedded_22+ *)
   (157, [158], "");
   (* 120  &embedded_22* :  *)
   (157, [], "");
   (* 121  multi : &embedded_23 *)
   (192, [156], "multi_prefix");
   (* 122  single : (' con_single ,' &embedded_24 ,' &embedded_25 )' *)
   (191, [106; 155; 104; 154; 104; 153; 105], "single_prefix");
   (* 123  &embedded_24 : term *)
   (154, [207], "");
   (* 124  &embedded_24 : multi_infix_expr *)
   (154, [166], "");
   (* 125  &embedded_25 : term *)
   (153, [207], "");
   (* 126  &embedded_25 : multi_infix_expr *)
   (153, [166], "");
   (* 127  single : (' &embedded_26 con_single &embedded_27 )' *)
   (191, [106; 152; 155; 151; 105], "single_infix");
   (* 128  &embedded_26 : term *)
   (152, [207], "");
   (* 129  &embedded_26 : multi_infix_expr *)
   (152, [166], "");
   (* 130  &embedded_27 : term *)
   (151, [207], "");
   (* 131  &embedded_27 : multi_infix_expr *)
   (151, [166], "");
   (* 132  multi_infix_expr : multi_extint_expr *)
   (166, [150], "");
   (* 133  multi_infix_expr : multi_intint_expr *)
   (166, [149], "");
   (* 134  multi_infix_expr : multi_parallel_expr *)
   (166, [148], "");
   (* 135  multi_infix_expr : multi_sequential_expr *)
   (166, [147], "");
   (* 136  multi_infix_expr : multi_conj_expr *)
   (166, [146], "");
   (* 137  multi_infix_expr : multi_disj_expr *)
   (166, [145], "");
   (* 138  multi_infix_expr : multi_prod_expr *)
   (166, [144], "");
   (* 139  multi_prod_expr : term &embedded_28+ *)
   (144, [207; 142], "multi_prod_expr");
   (* 140  &embedded_28 : *' term *)
   (143, [81; 207], "");
   (* 141  &embedded_28+ : &embedded_28+ &embedded_28 *)
   (142, [142; 143], "");
   (* 142  &embedded_28+ : &embedded_28 *)
   (142, [143], "");
   (* 143  multi_disj_expr : term &embedded_29+ *)
   (145, [207; 140], "multi_disj_expr");
   (* 144  &embedded_29 : ||' term *)
   (141, [80; 207], "");
   (* 145  &embedded_29+ : &embedded_29+ &embedded_29 *)
   (140, [140; 141], "");
   (* 146  &embedded_29+ : &embedded_29 *)
   (140, [141], "");
   (* 147  multi_conj_expr : term &embedded_30+ *)
   (146, [207; 138], "multi_conj_expr");
   (* 148  &embedded_30 : &&' term *)
   (139, [79; 207], "");
   (* 149  &embedded_30+ : &embedded_30+ &embedded_30 *)
   (138, [138; 139], "");
   (* 150  &embedded_30+ : &embedded_30 *)
   (138, [139], "");
   (* 151  multi_sequential_expr : term &embedded_31+ *)
   (147, [207; 136], "multi_sequential_expr");
   (* 152  &embedded_31 : &/' term *)
   (137, [78; 207], "");
   (* 153  &embedded_31+ : &embedded_31+ &embedded_31 *)
   (136, [136; 137], "");
   (* 154  &embedded_31+ : &embedded_31 *)
   (136, [137], "");
   (* 155  multi_parallel_expr : term &embedded_32+ *)
   (148, [207; 134], "multi_parallel_expr");
   (* 156  &embedded_32 : &|' term *)
   (135, [77; 207], "");
   (* 157  &embedded_32+ : &embedded_32+ &embedded_32 *)
   (134, [134; 135], "");
   (* 158  &embedded_32+ : &embedded_32 *)
   (134, [135], "");
   (* 159  multi_intint_expr : term &embedded_33+ *)
   (149, [207; 132], "multi_intint_expr");
   (* 160  &embedded_33 : |' term *)
   (133, [76; 207], "");
   (* 161  &embedded_33+ : &embedded_33+ &embedded_33 *)
   (132, [132; 133], "");
   (* 162  &embedded_33+ : &embedded_33 *)
   (132, [133], "");
   (* 163  multi_extint_expr : term &embedded_34+ *)
   (150, [207; 130], "multi_extint_expr");
   (* 164  &embedded_34 : &' term *)
   (131, [75; 207], "");
   (* 165  &embedded_34+ : &embedded_34+ &embedded_34 *)
   (130, [130; 131], "");
   (* 166  &embedded_34+ : &embedded_34 *)
   (130, [131], "");
   (* 167  con_multi : &&' *)
   (163, [79], "con_conjunction");
   (* 168  con_multi : ||' *)
   (163, [80], "con_disjunction");
   (* 169  con_multi : &|' *)
   (163, [77], "con_parallel_events");
   (* 170  con_multi : &/' *)
   (163, [78], "con_sequential_events");
   (* 171  con_multi : |' *)
   (163, [76], "con_intensional_intersection");
   (* 172  con_multi : &' *)
   (163, [75], "con_extensional_intersection");
   (* 173  con_product : *' *)
   (160, [81], "con_product");
   (* 174  con_single : -' *)
   (155, [74], "con_extensional_difference");
   (* 175  con_single : ~' *)
   (155, [73], "con_intensional_difference");
   (* 176  con_int_set : [' *)
   (184, [69], "con_int_set");
   (* 177  con_ext_set : {' *)
   (180, [71], "con_ext_set");
   (* 178  con_negation : --' *)
   (176, [84], "con_negation");
   (* 179  con_int_image : \\' *)
   (174, [83], "con_int_image");
   (* 180  con_ext_image : /' *)
   (170, [82], "con_ext_image");
   (* 181  variable : $' word *)
   (196, [103; 200], "independent_var");
   (* 182  variable : #' word *)
   (196, [102; 200], "dependent_var");
   (* 183  variable : ?' word *)
   (196, [115; 200], "query_var");
   (* 184  tense : :!' integer' :' *)
   (225, [112; 111; 110], "tense_time");
   (* 185  tense : :/:' *)
   (225, [109], "tense_future");
   (* 186  tense : :|:' *)
   (225, [108], "tense_present");
   (* 187  tense : :\\:' *)
   (225, [107], "tense_past");
   (* 188  desire : truth *)
   (213, [222], "");
   (* 189  truth : %' frequency' &embedded_36? %' *)
   (222, [67; 66; 126; 67], "truth");
   (* 190  &embedded_36 : ;' confidence' &embedded_35? *)
   (127, [65; 64; 128], "");
   (* 191  &embedded_35 : ;' k_evidence' *)
   (129, [65; 63], "");
   (* 192  &embedded_35? : &embedded_35 *)
   (128, [129], "");
   (* 193  &embedded_35? :  *)
   (128, [], "");
   (* 194  &embedded_36? : &embedded_36 *)
   (126, [127], "");
   (* 195  &embedded_36? :  *)
   (126, [], "");
   (* 196  budget : $' priority' &embedded_38? $' *)
   (232, [103; 62; 122; 103], "budget");
   (* 197  &embedded_38 : ;' durability' &embedded_37? *)
   (123, [65; 61; 124], "");
   (* 198  &embedded_37 : ;' quality' *)
   (125, [65; 60], "");
   (* 199  &embedded_37? : &embedded_37 *)
   (124, [125], "");
   (* 200  &embedded_37? :  *)
   (124, [], "");
   (* 201  &embedded_38? : &embedded_38 *)
   (122, [123], "");
   (* 202  &embedded_38? :  *)
   (122, [], "");
   (* 203  &embedded_39 : string' *)
   (121, [101], "");
   (* 204  &embedded_39 : string_raw' *)
   (121, [100], "");
   (* 205  word : &embedded_39 *)
   (200, [121], "");
   (* 206  task' : task ~&eof *)
   (120, [233; 0], "");
   (* 207  &whitespace : '\t ' *)
   (119, [58], "");
   (* 208  &whitespace+ : &whitespace+ &whitespace *)
   (118, [118; 119], "");
   (* 209  &whitespace+ : &whitespace *)
   (118, [119], "");
   (* 210  &whitespace* : &whitespace+ *)
   (117, [118], "");
   (* 211  &whitespace* :  *)
   (117, [], "");
   (* 212  .' : ''.'' &whitespace* *)
   (116, [55; 117], "");
   (* 213  ?' : ''?'' &whitespace* *)
   (115, [54; 117], "");
   (* 214  !' : ''!'' &whitespace* *)
   (114, [53; 117], "");
   (* 215  @' : ''@'' &whitespace* *)
   (113, [52; 117], "");
   (* 216  :!' : '':!'' &whitespace* *)
   (112, [9; 117], "");
   (* 217  integer' : @integer &whitespace* *)
   (111, [57; 117], "");
   (* 218  :' : '':'' &whitespace* *)
   (110, [8; 117], "");
   (* 219  :/:' : '':/:'' &whitespace* *)
   (109, [7; 117], "");
   (* 220  :|:' : '':|:'' &whitespace* *)
   (108, [5; 117], "");
   (* 221  :\\:' : '':\\:'' &whitespace* *)
   (107, [4; 117], "");
   (* 222  (' : ''('' &whitespace* *)
   (106, [49; 117], "");
   (* 223  )' : '')'' &whitespace* *)
   (105, [48; 117], "");
   (* 224  ,' : '','' &whitespace* *)
   (104, [47; 117], "");
   (* 225  $' : ''$'' &whitespace* *)
   (103, [11; 117], "");
   (* 226  #' : ''#'' &whitespace* *)
   (102, [10; 117], "");
   (* 227  string' : @string &whitespace* *)
   (101, [6; 117], "");
   (* 228  string_raw' : @string_raw &whitespace* *)
   (100, [3; 117], "");
   (* 229  ^' : ''^'' &whitespace* *)
   (99, [32; 117], "");
   (* 230  <' : ''<'' &whitespace* *)
   (98, [51; 117], "");
   (* 231  >' : ''>'' &whitespace* *)
   (97, [50; 117], "");
   (* 232  -->' : ''-->'' &whitespace* *)
   (96, [46; 117], "");
   (* 233  <->' : ''<->'' &whitespace* *)
   (95, [45; 117], "");
   (* 234  {--' : ''{--'' &whitespace* *)
   (94, [44; 117], "");
   (* 235  --]' : ''--]'' &whitespace* *)
   (93, [43; 117], "");
   (* 236  {-]' : ''{-]'' &whitespace* *)
   (92, [42; 117], "");
   (* 237  ==>' : ''==>'' &whitespace* *)
   (91, [41; 117], "");
   (* 238  =/>' : ''=/>'' &whitespace* *)
   (90, [40; 117], "");
   (* 239  =|>' : ''=|>'' &whitespace* *)
   (89, [39; 117], "");
   (* 240  =\\>' : ''=\\>'' &whitespace* *)
   (88, [38; 117], "");
   (* 241  <=>' : ''<=>'' &whitespace* *)
   (87, [37; 117], "");
   (* 242  </>' : ''</>'' &whitespace* *)
   (86, [36; 117], "");
   (* 243  <|>' : ''<|>'' &whitespace* *)
   (85, [33; 117], "");
   (* 244  --' : ''--'' &whitespace* *)
   (84, [14; 117], "");
   (* 245  \\' : ''\\'' &whitespace* *)
   (83, [13; 117], "");
   (* 246  /' : ''/'' &whitespace* *)
   (82, [12; 117], "");
   (* 247  *' : ''*'' &whitespace* *)
   (81, [25; 117], "");
   (* 248  ||' : ''||'' &whitespace* *)
   (80, [24; 117], "");
   (* 249  &&' : ''&&'' &whitespace* *)
   (79, [23; 117], "");
   (* 250  &/' : ''&/'' &whitespace* *)
   (78, [22; 117], "");
   (* 251  &|' : ''&|'' &whitespace* *)
   (77, [21; 117], "");
   (* 252  |' : ''|'' &whitespace* *)
   (76, [20; 117], "");
   (* 253  &' : ''&'' &whitespace* *)
   (75, [19; 117], "");
   (* 254  -' : ''-'' &whitespace* *)
   (74, [18; 117], "");
   (* 255  ~' : ''~'' &whitespace* *)
   (73, [17; 117], "");
   (* 256  }' : ''}'' &whitespace* *)
   (72, [26; 117], "");
   (* 257  {' : ''{'' &whitespace* *)
   (71, [15; 117], "");
   (* 258  ]' : '']'' &whitespace* *)
   (70, [27; 117], "");
   (* 259  [' : ''['' &whitespace* *)
   (69, [16; 117], "");
   (* 260  +' : ''+'' &whitespace* *)
   (68, [28; 117], "");
   (* 261  %' : ''%'' &whitespace* *)
   (67, [2; 117], "");
   (* 262  frequency' : @frequency &whitespace* *)
   (66, [56; 117], "");
   (* 263  ;' : '';'' &whitespace* *)
   (65, [1; 117], "");
   (* 264  confidence' : @confidence &whitespace* *)
   (64, [35; 117], "");
   (* 265  k_evidence' : @k_evidence &whitespace* *)
   (63, [34; 117], "");
   (* 266  priority' : @priority &whitespace* *)
   (62, [31; 117], "");
   (* 267  durability' : @durability &whitespace* *)
   (61, [30; 117], "");
   (* 268  quality' : @quality &whitespace* *)
   (60, [29; 117], "");
   (* 269  task'' : &whitespace* task' *)
   (59, [117; 120], "")
  ].

(* Regular expressions over character codes. *)
Inductive re : Type :=
  | Void
  | Eps
  | Range (ranges : list (Z * Z))
  | Except (ranges : list (Z * Z))
  | Cat (a b : re)
  | Alt (a b : re)
  | Star (a : re).

Definition in_ranges (l : list (Z * Z)) (x : Z) : bool :=
  existsb (fun r => (fst r <=? x) && (x <=? snd r)) l.

(* The words of a regular expression.  Only the characters 0..127 count: the
   classes with an exclamation mark in narsese.par mean all others of these. *)
Inductive matches : re -> list ascii -> Prop :=
  | M_eps : matches Eps []
  | M_range l c : in_ranges l (code c) = true -> matches (Range l) [c]
  | M_except l c : in_ranges l (code c) = false -> 0 <= code c -> matches (Except l) [c]
  | M_cat a b u v : matches a u -> matches b v -> matches (Cat a b) (u ++ v)
  | M_left a b u : matches a u -> matches (Alt a b) u
  | M_right a b u : matches b u -> matches (Alt a b) u
  | M_none a : matches (Star a) []
  | M_more a u v : matches a u -> matches (Star a) v -> matches (Star a) (u ++ v).

(* Abbreviations: one character, a text, +, ?. *)
Definition chr (x : Z) : re := Range [(x, x)].
Fixpoint text_re (s : string) : re :=
  match s with
  | EmptyString => Eps
  | String c EmptyString => chr (code c)
  | String c s' => Cat (chr (code c)) (text_re s')
  end.
Definition plus (a : re) : re := Cat a (Star a).
Definition opt (a : re) : re := Alt Eps a.
Definition digits : re := Range [(48, 57)].

(* narsese.par lines 148, 150, 151: @priority, @quality, @frequency
   (("0"? '.' '0-9'+) | ("1" "." '0'* ) | "1" | "0") *)
Definition unit_number : re :=
  Alt (Cat (opt (chr 48)) (Cat (chr 46) (plus digits)))
      (Alt (Cat (chr 49) (Cat (chr 46) (Star (chr 48))))
           (Alt (chr 49) (chr 48))).

(* narsese.par lines 149, 152: @durability, @confidence
   ("0"? '.' '0'* '1-9'+ '0-9'* ) *)
Definition open_number : re :=
  Cat (opt (chr 48)) (Cat (chr 46) (Cat (Star (chr 48))
      (Cat (plus (Range [(49, 57)])) (Star digits)))).

(* narsese.par line 153: @k_evidence ('1-9'+ '0-9'* ) *)
Definition natural : re := Cat (plus (Range [(49, 57)])) (Star digits).

(* narsese.par line 159: @integer '-'? '0-9'+ *)
Definition integer : re := Cat (opt (chr 45)) (plus digits).

(* narsese.par line 156: @string, a quoted text in which each character that
   is neither a backslash (92) nor a quote (34) may be followed by a backslash
   and one of those two. *)
Definition quoted : re :=
  Cat (chr 34)
      (Cat (Star (Cat (Except [(92, 92); (34, 34)])
                      (opt (Cat (chr 92) (Range [(92, 92); (34, 34)])))))
           (chr 34)).

(* The characters excluded from @string_raw, narsese.par line 158:
   - + < > = (quote) & | ! . ? @ ~ % ; , : / \ * # $ [ ] { } ( ) ^ and the space. *)
Definition special : list Z :=
  [45; 43; 60; 62; 61; 34; 38; 124; 33; 46; 63; 64; 126; 37; 59; 44; 58; 47; 92;
   42; 35; 36; 91; 93; 123; 125; 40; 41; 94; 32].

(* narsese.par line 158: @string_raw *)
Definition plain_word : re := plus (Except (map (fun x => (x, x)) special)).

(* narsese.par line 10: #whitespaces *)
Definition blank : re := Range [(9, 9); (32, 32)].

(* narsese.h lines 797-855: the lexemes of the terminals.  The end of file is
   the empty text. *)
Definition lexeme (sym : Z) : re :=
  match nth_error
    [Eps (* 0 *);
     text_re ";" (* 1 *);
     text_re "%" (* 2 *);
     plain_word (* 3 *);
     text_re ":\:" (* 4 *);
     text_re ":|:" (* 5 *);
     quoted (* 6 *);
     text_re ":/:" (* 7 *);
     text_re ":" (* 8 *);
     text_re ":!" (* 9 *);
     text_re "#" (* 10 *);
     text_re "$" (* 11 *);
     text_re "/" (* 12 *);
     text_re "\" (* 13 *);
     text_re "--" (* 14 *);
     text_re "{" (* 15 *);
     text_re "[" (* 16 *);
     text_re "~" (* 17 *);
     text_re "-" (* 18 *);
     text_re "&" (* 19 *);
     text_re "|" (* 20 *);
     text_re "&|" (* 21 *);
     text_re "&/" (* 22 *);
     text_re "&&" (* 23 *);
     text_re "||" (* 24 *);
     text_re "*" (* 25 *);
     text_re "}" (* 26 *);
     text_re "]" (* 27 *);
     text_re "+" (* 28 *);
     unit_number (* 29 *);
     open_number (* 30 *);
     unit_number (* 31 *);
     text_re "^" (* 32 *);
     text_re "<|>" (* 33 *);
     natural (* 34 *);
     open_number (* 35 *);
     text_re "</>" (* 36 *);
     text_re "<=>" (* 37 *);
     text_re "=\>" (* 38 *);
     text_re "=|>" (* 39 *);
     text_re "=/>" (* 40 *);
     text_re "==>" (* 41 *);
     text_re "{-]" (* 42 *);
     text_re "--]" (* 43 *);
     text_re "{--" (* 44 *);
     text_re "<->" (* 45 *);
     text_re "-->" (* 46 *);
     text_re "," (* 47 *);
     text_re ")" (* 48 *);
     text_re "(" (* 49 *);
     text_re ">" (* 50 *);
     text_re "<" (* 51 *);
     text_re "@" (* 52 *);
     text_re "!" (* 53 *);
     text_re "?" (* 54 *);
     text_re "." (* 55 *);
     unit_number (* 56 *);
     integer (* 57 *);
     blank (* 58 *)] (Z.to_nat sym) with
  | Some r => r
  | None => Void
  end.

(* Derivation trees: a terminal with its text, or a production with the trees
   of its right-hand side. *)
Inductive tree : Type :=
  | Token (sym : Z) (txt : list ascii)
  | Derived (prod : nat) (kids : list tree).

(* The grammar symbol at the root of a tree. *)
Definition root (t : tree) : Z :=
  match t with
  | Token sym _ => sym
  | Derived r _ => match nth_error rules r with Some (lhs, _, _) => lhs | None => -1 end
  end.

(* A tree follows the grammar. *)
Inductive derivation : tree -> Prop :=
  | D_token sym txt : 0 <= sym < 59 -> matches (lexeme sym) txt -> derivation (Token sym txt)
  | D_derived r lhs rhs name kids :
      nth_error rules r = Some (lhs, rhs, name) ->
      map root kids = rhs -> Forall derivation kids -> derivation (Derived r kids).

(* The text of a tree: its lexemes from left to right. *)
Fixpoint text_of (t : tree) : list ascii :=
  match t with
  | Token _ txt => txt
  | Derived _ kids => concat (map text_of kids)
  end.

(* The name a terminal gives to its leaf of the syntax tree; narsese.par lines
   148-159, the names after the equals sign. *)
Definition token_name (sym : Z) : string :=
  match sym with
  | 3 => "string_raw"
  | 6 => "string"
  | 29 => "quality"
  | 30 => "durability"
  | 31 => "priority"
  | 34 => "k_evidence"
  | 35 => "confidence"
  | 56 => "frequency"
  | 57 => "integer"
  | _ => ""
  end.

(* The syntax trees a derivation stands for: named productions and named
   terminals become nodes, everything else only passes on its parts. *)
Fixpoint projection (t : tree) : list ast :=
  match t with
  | Token sym txt =>
      if (token_name sym =? "")%string then []
      else [Leaf (token_name sym) (string_of_list_ascii txt)]
  | Derived r kids =>
      let parts := concat (map projection kids) in
      match nth_error rules r with
      | Some (_, _, name) => if (name =? "")%string then parts else [Node name parts]
      | None => parts
      end
  end.

(* The lexemes of a tree, from left to right; the end of file has none. *)
Fixpoint lexemes (t : tree) : list (list ascii) :=
  match t with
  | Token sym txt => if sym =? 0 then [] else [txt]
  | Derived _ kids => concat (map lexemes kids)
  end.
