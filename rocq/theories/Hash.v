(* Model of utils/hash.h *)
From Coq Require Import ZArith List.
Import ListNotations.
Local Open Scope Z_scope.

(* size_t is 64 bits wide; its values are the integers 0 .. 2^64-1. *)
Definition two64 : Z := 18446744073709551616.

(* Conversion to size_t, e.g. (size_t)copula, (size_t)(-3), std::hash<int>. *)
Definition size_t (z : Z) : Z := z mod two64.

(* utils/hash.h l.61: the literal 0x9e3779b9 *)
Definition golden : Z := 2654435769.

(* utils/hash.h l.58-62, Hash::combine.  std::hash is the identity on
   integers (libstdc++); + and << wrap modulo 2^64. *)
Definition combine (seed value : Z) : Z :=
  Z.lxor seed ((value + golden + (Z.shiftl seed 6) mod two64 + Z.shiftr seed 2) mod two64).

(* utils/hash.h l.47-56, Hash::hash_container *)
Definition hash_container (values : list Z) : Z :=
  fold_left combine values 0.
