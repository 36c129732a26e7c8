(* Specification of splitting, joining and trimming; nothing here mentions the model. *)
From Coq Require Import ZArith List Bool.
Import ListNotations.
Local Open Scope Z_scope.

(* the pieces with one d between neighbours *)
Fixpoint glue (d : Z) (v : list (list Z)) : list Z :=
  match v with
  | [] => []
  | [p] => p
  | p :: v' => p ++ d :: glue d v'
  end.

(* how often d occurs in s *)
Definition occurrences (d : Z) (s : list Z) : Z := Z.of_nat (count_occ Z.eq_dec s d).

(* the total size of the pieces *)
Definition total (v : list (list Z)) : Z := fold_right (fun p n => Z.of_nat (length p) + n) 0 v.

(* "v is s cut at every d": non-empty, no piece contains d, gluing gives s back *)
Definition cut_at (d : Z) (s : list Z) (v : list (list Z)) : Prop :=
  v <> [] /\ Forall (fun p => ~ In d p) v /\ glue d v = s.

(* "r is s without its outer blanks" *)
Definition trimmed (blank : Z -> Prop) (s r : list Z) : Prop :=
  exists front back, s = front ++ r ++ back /\ Forall blank front /\ Forall blank back /\
    (r = [] \/ (exists x t, r = x :: t /\ ~ blank x) /\ (exists t x, r = t ++ [x] /\ ~ blank x)).

(* the blanks trimAscii7WhiteSpace removes *)
Definition ascii_blank (c : Z) : Prop := c = 0x09 \/ c = 0x0A \/ c = 0x0D \/ c = 0x20.

(* the blanks trimWhiteSpace removes *)
Definition wide_blank (c : Z) : Prop :=
  ascii_blank c \/ c = 0xA0 \/ 0x2000 <= c <= 0x200A \/ c = 0x202F \/ c = 0x205F \/ c = 0x3000.

(* White_Space code points among neither *)
Definition left_alone : list Z := [0x0B; 0x0C; 0x85; 0x1680; 0x2028; 0x2029].
