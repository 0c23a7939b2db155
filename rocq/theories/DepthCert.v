(* Certificates for the bounds of DepthFacts: for every symbol of the grammar
   how heavy a path down its syntax tree can be when the parse needs at most 0,
   1, ..., 8 cells for it (-1: no parse needs so few), and what every further
   cell adds.  They are checked against all rules in DepthFacts. *)
From Coq Require Import ZArith List.
Import ListNotations.
Open Scope Z_scope.

(* Weight: the levels of the tree *)
Definition level_table : list (Z * list Z) :=
  [(0, [-1;0;0;0;0;0;0;0;0]); (0, [-1;0;0;0;0;0;0;0;0]); (0, [-1;0;0;0;0;0;0;0;0]); (0,
   [-1;0;0;0;0;0;0;0;0]); (0, [-1;0;0;0;0;0;0;0;0]); (0, [-1;0;0;0;0;0;0;0;0]); (0,
   [-1;0;0;0;0;0;0;0;0]); (0, [-1;0;0;0;0;0;0;0;0]); (0, [-1;0;0;0;0;0;0;0;0]); (0,
   [-1;0;0;0;0;0;0;0;0]); (0, [-1;0;0;0;0;0;0;0;0]); (0, [-1;0;0;0;0;0;0;0;0]); (0,
   [-1;0;0;0;0;0;0;0;0]); (0, [-1;0;0;0;0;0;0;0;0]); (0, [-1;0;0;0;0;0;0;0;0]); (0,
   [-1;0;0;0;0;0;0;0;0]); (0, [-1;0;0;0;0;0;0;0;0]); (0, [-1;0;0;0;0;0;0;0;0]); (0,
   [-1;0;0;0;0;0;0;0;0]); (0, [-1;0;0;0;0;0;0;0;0]); (0, [-1;0;0;0;0;0;0;0;0]); (0,
   [-1;0;0;0;0;0;0;0;0]); (0, [-1;0;0;0;0;0;0;0;0]); (0, [-1;0;0;0;0;0;0;0;0]); (0,
   [-1;0;0;0;0;0;0;0;0]); (0, [-1;0;0;0;0;0;0;0;0]); (0, [-1;0;0;0;0;0;0;0;0]); (0,
   [-1;0;0;0;0;0;0;0;0]); (0, [-1;0;0;0;0;0;0;0;0]); (0, [-1;0;0;0;0;0;0;0;0]); (0,
   [-1;0;0;0;0;0;0;0;0]); (0, [-1;0;0;0;0;0;0;0;0]); (0, [-1;0;0;0;0;0;0;0;0]); (0,
   [-1;0;0;0;0;0;0;0;0]); (0, [-1;0;0;0;0;0;0;0;0]); (0, [-1;0;0;0;0;0;0;0;0]); (0,
   [-1;0;0;0;0;0;0;0;0]); (0, [-1;0;0;0;0;0;0;0;0]); (0, [-1;0;0;0;0;0;0;0;0]); (0,
   [-1;0;0;0;0;0;0;0;0]); (0, [-1;0;0;0;0;0;0;0;0]); (0, [-1;0;0;0;0;0;0;0;0]); (0,
   [-1;0;0;0;0;0;0;0;0]); (0, [-1;0;0;0;0;0;0;0;0]); (0, [-1;0;0;0;0;0;0;0;0]); (0,
   [-1;0;0;0;0;0;0;0;0]); (0, [-1;0;0;0;0;0;0;0;0]); (0, [-1;0;0;0;0;0;0;0;0]); (0,
   [-1;0;0;0;0;0;0;0;0]); (0, [-1;0;0;0;0;0;0;0;0]); (0, [-1;0;0;0;0;0;0;0;0]); (0,
   [-1;0;0;0;0;0;0;0;0]); (0, [-1;0;0;0;0;0;0;0;0]); (0, [-1;0;0;0;0;0;0;0;0]); (0,
   [-1;0;0;0;0;0;0;0;0]); (0, [-1;0;0;0;0;0;0;0;0]); (0, [-1;0;0;0;0;0;0;0;0]); (0,
   [-1;0;0;0;0;0;0;0;0]); (0, [-1;0;0;0;0;0;0;0;0]); (3, [-1;-1;-1;-1;-1;5;7;10;13]); (0,
   [-1;-1;0;0;0;0;0;0;0]); (0, [-1;-1;0;0;0;0;0;0;0]); (0, [-1;-1;0;0;0;0;0;0;0]); (0,
   [-1;-1;0;0;0;0;0;0;0]); (0, [-1;-1;0;0;0;0;0;0;0]); (0, [-1;-1;0;0;0;0;0;0;0]); (0,
   [-1;-1;0;0;0;0;0;0;0]); (0, [-1;-1;0;0;0;0;0;0;0]); (0, [-1;-1;0;0;0;0;0;0;0]); (0,
   [-1;-1;0;0;0;0;0;0;0]); (0, [-1;-1;0;0;0;0;0;0;0]); (0, [-1;-1;0;0;0;0;0;0;0]); (0,
   [-1;-1;0;0;0;0;0;0;0]); (0, [-1;-1;0;0;0;0;0;0;0]); (0, [-1;-1;0;0;0;0;0;0;0]); (0,
   [-1;-1;0;0;0;0;0;0;0]); (0, [-1;-1;0;0;0;0;0;0;0]); (0, [-1;-1;0;0;0;0;0;0;0]); (0,
   [-1;-1;0;0;0;0;0;0;0]); (0, [-1;-1;0;0;0;0;0;0;0]); (0, [-1;-1;0;0;0;0;0;0;0]); (0,
   [-1;-1;0;0;0;0;0;0;0]); (0, [-1;-1;0;0;0;0;0;0;0]); (0, [-1;-1;0;0;0;0;0;0;0]); (0,
   [-1;-1;0;0;0;0;0;0;0]); (0, [-1;-1;0;0;0;0;0;0;0]); (0, [-1;-1;0;0;0;0;0;0;0]); (0,
   [-1;-1;0;0;0;0;0;0;0]); (0, [-1;-1;0;0;0;0;0;0;0]); (0, [-1;-1;0;0;0;0;0;0;0]); (0,
   [-1;-1;0;0;0;0;0;0;0]); (0, [-1;-1;0;0;0;0;0;0;0]); (0, [-1;-1;0;0;0;0;0;0;0]); (0,
   [-1;-1;0;0;0;0;0;0;0]); (0, [-1;-1;0;0;0;0;0;0;0]); (0, [-1;-1;0;0;0;0;0;0;0]); (0,
   [-1;-1;0;0;0;0;0;0;0]); (0, [-1;-1;0;0;0;0;0;0;0]); (0, [-1;-1;0;0;0;0;0;0;0]); (0,
   [-1;-1;0;0;0;0;0;0;0]); (0, [-1;-1;0;0;0;0;0;0;0]); (0, [-1;-1;0;0;0;0;0;0;0]); (0,
   [-1;-1;0;0;0;0;0;0;0]); (0, [-1;-1;0;0;0;0;0;0;0]); (0, [-1;-1;0;0;0;0;0;0;0]); (0,
   [-1;-1;0;0;0;0;0;0;0]); (0, [-1;-1;0;0;0;0;0;0;0]); (0, [-1;-1;0;0;0;0;0;0;0]); (0,
   [-1;-1;0;0;0;0;0;0;0]); (0, [-1;-1;0;0;0;0;0;0;0]); (0, [-1;-1;0;0;0;0;0;0;0]); (0,
   [-1;-1;0;0;0;0;0;0;0]); (0, [-1;-1;0;0;0;0;0;0;0]); (0, [-1;-1;0;0;0;0;0;0;0]); (0,
   [-1;-1;0;0;0;0;0;0;0]); (0, [-1;-1;0;0;0;0;0;0;0]); (0, [-1;-1;0;0;0;0;0;0;0]); (0,
   [-1;0;0;0;0;0;0;0;0]); (0, [-1;0;0;0;0;0;0;0;0]); (0, [-1;0;0;0;0;0;0;0;0]); (3,
   [-1;-1;-1;-1;5;7;10;13;16]); (0, [-1;-1;0;0;0;0;0;0;0]); (0, [-1;0;0;0;0;0;0;0;0]); (0,
   [-1;-1;-1;0;0;0;0;0;0]); (0, [-1;0;0;0;0;0;0;0;0]); (0, [-1;-1;-1;0;0;0;0;0;0]); (0,
   [-1;0;0;0;0;0;0;0;0]); (0, [-1;-1;-1;0;0;0;0;0;0]); (0, [-1;0;0;0;0;0;0;0;0]); (0,
   [-1;-1;-1;0;0;0;0;0;0]); (3, [-1;-1;-1;1;3;5;8;11;14]); (3, [-1;-1;-1;1;3;5;8;11;14]); (3,
   [-1;-1;-1;1;3;5;8;11;14]); (3, [-1;-1;-1;1;3;5;8;11;14]); (3, [-1;-1;-1;1;3;5;8;11;14]); (3,
   [-1;-1;-1;1;3;5;8;11;14]); (3, [-1;-1;-1;1;3;5;8;11;14]); (3, [-1;-1;-1;1;3;5;8;11;14]); (3,
   [-1;-1;-1;1;3;5;8;11;14]); (3, [-1;-1;-1;1;3;5;8;11;14]); (3, [-1;-1;-1;1;3;5;8;11;14]); (3,
   [-1;-1;-1;1;3;5;8;11;14]); (3, [-1;-1;-1;1;3;5;8;11;14]); (3, [-1;-1;-1;1;3;5;8;11;14]); (3,
   [-1;-1;-1;-1;6;9;12;15;18]); (3, [-1;-1;-1;-1;6;9;12;15;18]); (3, [-1;-1;-1;-1;6;9;12;15;18]);
   (3, [-1;-1;-1;-1;6;9;12;15;18]); (3, [-1;-1;-1;-1;6;9;12;15;18]); (3,
   [-1;-1;-1;-1;6;9;12;15;18]); (3, [-1;-1;-1;-1;6;9;12;15;18]); (3, [-1;-1;1;3;6;9;12;15;18]); (3,
   [-1;-1;1;3;6;9;12;15;18]); (3, [-1;-1;1;3;6;9;12;15;18]); (3, [-1;-1;1;3;6;9;12;15;18]); (0,
   [-1;-1;1;1;1;1;1;1;1]); (3, [-1;-1;-1;-1;-1;-1;-1;5;8]); (3, [-1;0;0;1;3;5;8;11;14]); (3,
   [-1;-1;-1;1;3;5;8;11;14]); (3, [-1;-1;-1;1;3;5;8;11;14]); (0, [-1;-1;1;1;1;1;1;1;1]); (3,
   [-1;-1;-1;1;3;5;8;11;14]); (3, [-1;-1;-1;1;3;5;8;11;14]); (0, [-1;-1;1;1;1;1;1;1;1]); (3,
   [-1;-1;-1;1;3;5;8;11;14]); (3, [-1;-1;-1;1;3;5;8;11;14]); (3, [-1;-1;-1;-1;6;9;12;15;18]); (3,
   [-1;0;0;1;3;5;8;11;14]); (3, [-1;-1;-1;1;3;5;8;11;14]); (3, [-1;-1;-1;1;3;5;8;11;14]); (0,
   [-1;-1;1;1;1;1;1;1;1]); (3, [-1;0;0;1;3;5;8;11;14]); (3, [-1;-1;-1;1;3;5;8;11;14]); (3,
   [-1;-1;-1;1;3;5;8;11;14]); (0, [-1;-1;1;1;1;1;1;1;1]); (3, [-1;-1;-1;1;3;5;8;11;14]); (0,
   [-1;-1;1;1;1;1;1;1;1]); (3, [-1;0;0;1;3;5;8;11;14]); (3, [-1;-1;-1;1;3;5;8;11;14]); (3,
   [-1;-1;-1;1;3;5;8;11;14]); (0, [-1;-1;1;1;1;1;1;1;1]); (3, [-1;0;0;1;3;5;8;11;14]); (3,
   [-1;-1;-1;1;3;5;8;11;14]); (3, [-1;-1;-1;1;3;5;8;11;14]); (0, [-1;-1;1;1;1;1;1;1;1]); (3,
   [-1;-1;-1;-1;-1;5;8;11;14]); (3, [-1;-1;-1;-1;-1;5;8;11;14]); (3, [-1;-1;-1;-1;-1;5;8;11;14]);
   (3, [-1;-1;-1;2;4;6;9;12;15]); (3, [-1;-1;-1;-1;-1;-1;-1;6;9]); (3, [-1;-1;-1;-1;-1;-1;-1;6;9]);
   (3, [-1;-1;-1;-1;-1;-1;10;13;16]); (3, [-1;-1;-1;-1;-1;7;10;13;16]); (3,
   [-1;-1;-1;-1;-1;6;9;12;15]); (3, [-1;-1;-1;2;4;7;10;13;16]); (0, [-1;-1;-1;1;1;1;1;1;1]); (0,
   [-1;-1;-1;1;1;1;1;1;1]); (3, [-1;0;0;1;3;5;8;11;14]); (3, [-1;-1;-1;1;3;5;8;11;14]); (3,
   [-1;-1;-1;1;3;5;8;11;14]); (0, [-1;-1;0;0;0;0;0;0;0]); (3, [-1;0;0;1;3;5;8;11;14]); (3,
   [-1;-1;-1;1;3;5;8;11;14]); (3, [-1;-1;-1;1;3;5;8;11;14]); (0, [-1;-1;-1;1;1;1;1;1;1]); (3,
   [-1;-1;-1;-1;-1;-1;8;11;14]); (0, [-1;-1;1;1;1;1;1;1;1]); (3, [-1;-1;1;3;5;8;11;14;17]); (0,
   [-1;0;1;1;1;1;1;1;1]); (0, [-1;-1;1;1;1;1;1;1;1]); (3, [-1;-1;1;3;5;8;11;14;17]); (0,
   [-1;0;0;0;0;1;1;1;1]); (0, [-1;-1;-1;-1;-1;1;1;1;1]); (0, [-1;-1;-1;-1;-1;1;1;1;1]); (0,
   [-1;0;1;1;1;1;1;1;1]); (0, [-1;-1;1;1;1;1;1;1;1]); (3, [-1;-1;1;3;5;8;11;14;17]); (0,
   [-1;0;1;1;1;1;1;1;1]); (0, [-1;-1;1;1;1;1;1;1;1]); (3, [-1;-1;1;3;5;8;11;14;17]); (0,
   [-1;0;0;0;0;1;1;1;1]); (0, [-1;-1;-1;-1;-1;1;1;1;1]); (0, [-1;-1;-1;-1;-1;1;1;1;1]); (0,
   [-1;0;1;1;1;1;1;1;1]); (0, [-1;-1;1;1;1;1;1;1;1]); (0, [-1;-1;1;1;1;1;1;1;1]); (3,
   [-1;-1;1;3;5;8;11;14;17]); (3, [-1;-1;-1;-1;-1;2;9;12;15]); (3, [-1;-1;1;3;5;8;11;14;17]); (3,
   [-1;-1;-1;4;6;9;12;15;18]); (0, [-1;0;0;0;0;1;1;1;1]); (0, [-1;-1;-1;-1;-1;1;1;1;1]); (0,
   [-1;-1;-1;-1;-1;1;1;1;1]); (3, [-1;-1;-1;-1;5;7;10;13;16])].

(* Weight: the levels of the terms that the actions make *)
Definition depth_table : list (Z * list Z) :=
  [(0, [-1;0;0;0;0;0;0;0;0]); (0, [-1;0;0;0;0;0;0;0;0]); (0, [-1;0;0;0;0;0;0;0;0]); (0,
   [-1;0;0;0;0;0;0;0;0]); (0, [-1;0;0;0;0;0;0;0;0]); (0, [-1;0;0;0;0;0;0;0;0]); (0,
   [-1;0;0;0;0;0;0;0;0]); (0, [-1;0;0;0;0;0;0;0;0]); (0, [-1;0;0;0;0;0;0;0;0]); (0,
   [-1;0;0;0;0;0;0;0;0]); (0, [-1;0;0;0;0;0;0;0;0]); (0, [-1;0;0;0;0;0;0;0;0]); (0,
   [-1;0;0;0;0;0;0;0;0]); (0, [-1;0;0;0;0;0;0;0;0]); (0, [-1;0;0;0;0;0;0;0;0]); (0,
   [-1;0;0;0;0;0;0;0;0]); (0, [-1;0;0;0;0;0;0;0;0]); (0, [-1;0;0;0;0;0;0;0;0]); (0,
   [-1;0;0;0;0;0;0;0;0]); (0, [-1;0;0;0;0;0;0;0;0]); (0, [-1;0;0;0;0;0;0;0;0]); (0,
   [-1;0;0;0;0;0;0;0;0]); (0, [-1;0;0;0;0;0;0;0;0]); (0, [-1;0;0;0;0;0;0;0;0]); (0,
   [-1;0;0;0;0;0;0;0;0]); (0, [-1;0;0;0;0;0;0;0;0]); (0, [-1;0;0;0;0;0;0;0;0]); (0,
   [-1;0;0;0;0;0;0;0;0]); (0, [-1;0;0;0;0;0;0;0;0]); (0, [-1;0;0;0;0;0;0;0;0]); (0,
   [-1;0;0;0;0;0;0;0;0]); (0, [-1;0;0;0;0;0;0;0;0]); (0, [-1;0;0;0;0;0;0;0;0]); (0,
   [-1;0;0;0;0;0;0;0;0]); (0, [-1;0;0;0;0;0;0;0;0]); (0, [-1;0;0;0;0;0;0;0;0]); (0,
   [-1;0;0;0;0;0;0;0;0]); (0, [-1;0;0;0;0;0;0;0;0]); (0, [-1;0;0;0;0;0;0;0;0]); (0,
   [-1;0;0;0;0;0;0;0;0]); (0, [-1;0;0;0;0;0;0;0;0]); (0, [-1;0;0;0;0;0;0;0;0]); (0,
   [-1;0;0;0;0;0;0;0;0]); (0, [-1;0;0;0;0;0;0;0;0]); (0, [-1;0;0;0;0;0;0;0;0]); (0,
   [-1;0;0;0;0;0;0;0;0]); (0, [-1;0;0;0;0;0;0;0;0]); (0, [-1;0;0;0;0;0;0;0;0]); (0,
   [-1;0;0;0;0;0;0;0;0]); (0, [-1;0;0;0;0;0;0;0;0]); (0, [-1;0;0;0;0;0;0;0;0]); (0,
   [-1;0;0;0;0;0;0;0;0]); (0, [-1;0;0;0;0;0;0;0;0]); (0, [-1;0;0;0;0;0;0;0;0]); (0,
   [-1;0;0;0;0;0;0;0;0]); (0, [-1;0;0;0;0;0;0;0;0]); (0, [-1;0;0;0;0;0;0;0;0]); (0,
   [-1;0;0;0;0;0;0;0;0]); (0, [-1;0;0;0;0;0;0;0;0]); (2, [-1;-1;-1;-1;-1;1;2;3;5]); (0,
   [-1;-1;0;0;0;0;0;0;0]); (0, [-1;-1;0;0;0;0;0;0;0]); (0, [-1;-1;0;0;0;0;0;0;0]); (0,
   [-1;-1;0;0;0;0;0;0;0]); (0, [-1;-1;0;0;0;0;0;0;0]); (0, [-1;-1;0;0;0;0;0;0;0]); (0,
   [-1;-1;0;0;0;0;0;0;0]); (0, [-1;-1;0;0;0;0;0;0;0]); (0, [-1;-1;0;0;0;0;0;0;0]); (0,
   [-1;-1;0;0;0;0;0;0;0]); (0, [-1;-1;0;0;0;0;0;0;0]); (0, [-1;-1;0;0;0;0;0;0;0]); (0,
   [-1;-1;0;0;0;0;0;0;0]); (0, [-1;-1;0;0;0;0;0;0;0]); (0, [-1;-1;0;0;0;0;0;0;0]); (0,
   [-1;-1;0;0;0;0;0;0;0]); (0, [-1;-1;0;0;0;0;0;0;0]); (0, [-1;-1;0;0;0;0;0;0;0]); (0,
   [-1;-1;0;0;0;0;0;0;0]); (0, [-1;-1;0;0;0;0;0;0;0]); (0, [-1;-1;0;0;0;0;0;0;0]); (0,
   [-1;-1;0;0;0;0;0;0;0]); (0, [-1;-1;0;0;0;0;0;0;0]); (0, [-1;-1;0;0;0;0;0;0;0]); (0,
   [-1;-1;0;0;0;0;0;0;0]); (0, [-1;-1;0;0;0;0;0;0;0]); (0, [-1;-1;0;0;0;0;0;0;0]); (0,
   [-1;-1;0;0;0;0;0;0;0]); (0, [-1;-1;0;0;0;0;0;0;0]); (0, [-1;-1;0;0;0;0;0;0;0]); (0,
   [-1;-1;0;0;0;0;0;0;0]); (0, [-1;-1;0;0;0;0;0;0;0]); (0, [-1;-1;0;0;0;0;0;0;0]); (0,
   [-1;-1;0;0;0;0;0;0;0]); (0, [-1;-1;0;0;0;0;0;0;0]); (0, [-1;-1;0;0;0;0;0;0;0]); (0,
   [-1;-1;0;0;0;0;0;0;0]); (0, [-1;-1;0;0;0;0;0;0;0]); (0, [-1;-1;0;0;0;0;0;0;0]); (0,
   [-1;-1;0;0;0;0;0;0;0]); (0, [-1;-1;0;0;0;0;0;0;0]); (0, [-1;-1;0;0;0;0;0;0;0]); (0,
   [-1;-1;0;0;0;0;0;0;0]); (0, [-1;-1;0;0;0;0;0;0;0]); (0, [-1;-1;0;0;0;0;0;0;0]); (0,
   [-1;-1;0;0;0;0;0;0;0]); (0, [-1;-1;0;0;0;0;0;0;0]); (0, [-1;-1;0;0;0;0;0;0;0]); (0,
   [-1;-1;0;0;0;0;0;0;0]); (0, [-1;-1;0;0;0;0;0;0;0]); (0, [-1;-1;0;0;0;0;0;0;0]); (0,
   [-1;-1;0;0;0;0;0;0;0]); (0, [-1;-1;0;0;0;0;0;0;0]); (0, [-1;-1;0;0;0;0;0;0;0]); (0,
   [-1;-1;0;0;0;0;0;0;0]); (0, [-1;-1;0;0;0;0;0;0;0]); (0, [-1;-1;0;0;0;0;0;0;0]); (0,
   [-1;0;0;0;0;0;0;0;0]); (0, [-1;0;0;0;0;0;0;0;0]); (0, [-1;0;0;0;0;0;0;0;0]); (2,
   [-1;-1;-1;-1;1;2;3;5;7]); (0, [-1;-1;0;0;0;0;0;0;0]); (0, [-1;0;0;0;0;0;0;0;0]); (0,
   [-1;-1;-1;0;0;0;0;0;0]); (0, [-1;0;0;0;0;0;0;0;0]); (0, [-1;-1;-1;0;0;0;0;0;0]); (0,
   [-1;0;0;0;0;0;0;0;0]); (0, [-1;-1;-1;0;0;0;0;0;0]); (0, [-1;0;0;0;0;0;0;0;0]); (0,
   [-1;-1;-1;0;0;0;0;0;0]); (2, [-1;-1;-1;0;1;2;3;5;7]); (2, [-1;-1;-1;0;1;2;3;5;7]); (2,
   [-1;-1;-1;0;1;2;3;5;7]); (2, [-1;-1;-1;0;1;2;3;5;7]); (2, [-1;-1;-1;0;1;2;3;5;7]); (2,
   [-1;-1;-1;0;1;2;3;5;7]); (2, [-1;-1;-1;0;1;2;3;5;7]); (2, [-1;-1;-1;0;1;2;3;5;7]); (2,
   [-1;-1;-1;0;1;2;3;5;7]); (2, [-1;-1;-1;0;1;2;3;5;7]); (2, [-1;-1;-1;0;1;2;3;5;7]); (2,
   [-1;-1;-1;0;1;2;3;5;7]); (2, [-1;-1;-1;0;1;2;3;5;7]); (2, [-1;-1;-1;0;1;2;3;5;7]); (2,
   [-1;-1;-1;-1;3;4;6;8;10]); (2, [-1;-1;-1;-1;3;4;6;8;10]); (2, [-1;-1;-1;-1;3;4;6;8;10]); (2,
   [-1;-1;-1;-1;3;4;6;8;10]); (2, [-1;-1;-1;-1;3;4;6;8;10]); (2, [-1;-1;-1;-1;3;4;6;8;10]); (2,
   [-1;-1;-1;-1;3;4;6;8;10]); (2, [-1;-1;0;1;3;4;6;8;10]); (2, [-1;-1;0;1;3;4;6;8;10]); (2,
   [-1;-1;0;1;3;4;6;8;10]); (2, [-1;-1;0;1;3;4;6;8;10]); (0, [-1;-1;0;0;0;0;0;0;0]); (2,
   [-1;-1;-1;-1;-1;-1;-1;2;3]); (2, [-1;0;0;0;1;2;3;5;7]); (2, [-1;-1;-1;0;1;2;3;5;7]); (2,
   [-1;-1;-1;0;1;2;3;5;7]); (0, [-1;-1;0;0;0;0;0;0;0]); (2, [-1;-1;-1;0;1;2;3;5;7]); (2,
   [-1;-1;-1;0;1;2;3;5;7]); (0, [-1;-1;0;0;0;0;0;0;0]); (2, [-1;-1;-1;0;1;2;3;5;7]); (2,
   [-1;-1;-1;0;1;2;3;5;7]); (2, [-1;-1;-1;-1;3;4;6;8;10]); (2, [-1;0;0;0;1;2;3;5;7]); (2,
   [-1;-1;-1;0;1;2;3;5;7]); (2, [-1;-1;-1;0;1;2;3;5;7]); (0, [-1;-1;0;0;0;0;0;0;0]); (2,
   [-1;0;0;0;1;2;3;5;7]); (2, [-1;-1;-1;0;1;2;3;5;7]); (2, [-1;-1;-1;0;1;2;3;5;7]); (0,
   [-1;-1;0;0;0;0;0;0;0]); (2, [-1;-1;-1;0;1;2;3;5;7]); (0, [-1;-1;0;0;0;0;0;0;0]); (2,
   [-1;0;0;0;1;2;3;5;7]); (2, [-1;-1;-1;0;1;2;3;5;7]); (2, [-1;-1;-1;0;1;2;3;5;7]); (0,
   [-1;-1;0;0;0;0;0;0;0]); (2, [-1;0;0;0;1;2;3;5;7]); (2, [-1;-1;-1;0;1;2;3;5;7]); (2,
   [-1;-1;-1;0;1;2;3;5;7]); (0, [-1;-1;0;0;0;0;0;0;0]); (2, [-1;-1;-1;-1;-1;2;3;5;7]); (2,
   [-1;-1;-1;-1;-1;2;3;5;7]); (2, [-1;-1;-1;-1;-1;2;3;5;7]); (2, [-1;-1;-1;1;2;3;4;6;8]); (2,
   [-1;-1;-1;-1;-1;-1;-1;3;4]); (2, [-1;-1;-1;-1;-1;-1;-1;3;4]); (2, [-1;-1;-1;-1;-1;-1;5;7;9]);
   (2, [-1;-1;-1;-1;-1;3;4;6;8]); (2, [-1;-1;-1;-1;-1;3;4;6;8]); (2, [-1;-1;-1;1;2;3;5;7;9]); (0,
   [-1;-1;-1;0;0;0;0;0;0]); (0, [-1;-1;-1;0;0;0;0;0;0]); (2, [-1;0;0;0;1;2;3;5;7]); (2,
   [-1;-1;-1;0;1;2;3;5;7]); (2, [-1;-1;-1;0;1;2;3;5;7]); (0, [-1;-1;0;0;0;0;0;0;0]); (2,
   [-1;0;0;0;1;2;3;5;7]); (2, [-1;-1;-1;0;1;2;3;5;7]); (2, [-1;-1;-1;0;1;2;3;5;7]); (0,
   [-1;-1;-1;0;0;0;0;0;0]); (2, [-1;-1;-1;-1;-1;-1;3;5;7]); (0, [-1;-1;0;0;0;0;0;0;0]); (2,
   [-1;-1;0;1;2;3;5;7;9]); (0, [-1;0;0;0;0;0;0;0;0]); (0, [-1;-1;0;0;0;0;0;0;0]); (2,
   [-1;-1;0;1;2;3;5;7;9]); (0, [-1;0;0;0;0;0;0;0;0]); (0, [-1;-1;-1;-1;-1;0;0;0;0]); (0,
   [-1;-1;-1;-1;-1;0;0;0;0]); (0, [-1;0;0;0;0;0;0;0;0]); (0, [-1;-1;0;0;0;0;0;0;0]); (2,
   [-1;-1;0;1;2;3;5;7;9]); (0, [-1;0;0;0;0;0;0;0;0]); (0, [-1;-1;0;0;0;0;0;0;0]); (2,
   [-1;-1;0;1;2;3;5;7;9]); (0, [-1;0;0;0;0;0;0;0;0]); (0, [-1;-1;-1;-1;-1;0;0;0;0]); (0,
   [-1;-1;-1;-1;-1;0;0;0;0]); (0, [-1;0;0;0;0;0;0;0;0]); (0, [-1;-1;0;0;0;0;0;0;0]); (0,
   [-1;-1;0;0;0;0;0;0;0]); (2, [-1;-1;0;1;2;3;5;7;9]); (2, [-1;-1;-1;-1;-1;2;5;7;9]); (2,
   [-1;-1;0;1;2;3;5;7;9]); (2, [-1;-1;-1;1;2;3;5;7;9]); (0, [-1;0;0;0;0;0;0;0;0]); (0,
   [-1;-1;-1;-1;-1;0;0;0;0]); (0, [-1;-1;-1;-1;-1;0;0;0;0]); (2, [-1;-1;-1;-1;1;2;3;5;7])].
