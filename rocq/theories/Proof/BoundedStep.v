(* One step of the length-bounded UTF-8 scanners: lengthCheck followed by decodeUtf8. *)
From Coq Require Import ZArith List Bool Lia ZifyBool.
From Verif Require Import Machine.
From Verif.Model Require Import Internal Decode Tables Predicate Str.
From Verif.Spec Require Import Utf Target Result Bounded.
From Verif.Proof Require Import Bits Encode DecodeFacts TextFacts ToFuncs IsFuncs.
Import ListNotations.
Local Open Scope Z_scope.

Lemma len_app a b : len (a ++ b) = len a + len b.
Proof. unfold len. rewrite app_length. lia. Qed.
Lemma len_cons x l : len (x :: l) = 1 + len l.
Proof. unfold len. cbn [length]. lia. Qed.
Lemma len_nil : len [] = 0. Proof. reflexivity. Qed.
Lemma len_pos l : 0 <= len l. Proof. unfold len. lia. Qed.
Lemma len_zero l : len l = 0 -> l = [].
Proof. destruct l; [reflexivity|]. rewrite len_cons. pose proof (len_pos l). lia. Qed.
Lemma remaining_len l : remaining l = len l. Proof. reflexivity. Qed.

Lemma app_prefix (a b c d : list Z) : a ++ b = c ++ d -> len c <= len a -> exists r, a = c ++ r /\ d = r ++ b.
Proof.
  revert c. induction a as [|x a IH]; intros c E H.
  - rewrite len_nil in H. pose proof (len_pos c). assert (c = []) as -> by (apply len_zero; lia). exists []. auto.
  - destruct c as [|y c]; [exists (x :: a); auto|]. cbn in E. injection E as -> E. rewrite !len_cons in H.
    destruct (IH c E ltac:(lia)) as (r & -> & ->). exists r. auto.
Qed.

(* ---------------------------------------------------------------- announced *)

Ltac ifs := repeat match goal with |- context [if ?b then _ else _] => destruct b eqn:? end.

Lemma announced_app bs after : bs <> [] -> announced bs <= len bs -> announced (bs ++ after) = announced bs.
Proof.
  intros Hne. destruct bs as [|b r]; [congruence|]. rewrite len_cons. cbn [app announced].
  destruct r as [|x [|y r]]; cbn [app].
  - unfold len; cbn [length]. ifs; lia.
  - unfold len; cbn [length]. ifs; lia.
  - reflexivity.
Qed.
Lemma announced_range bs : bs <> [] -> 1 <= announced bs <= 6.
Proof. destruct bs as [|b [|x [|y r]]]; [congruence|..]; intros _; cbn [announced]; ifs; lia. Qed.

Lemma low_start_app bs after : low_start bs -> low_start (bs ++ after).
Proof. destruct bs as [|b [|x r]]; cbn; tauto. Qed.
Lemma low_start_app_inv bs after : 2 <= len bs -> low_start (bs ++ after) -> low_start bs.
Proof. destruct bs as [|b [|x r]]; unfold len; cbn [length app low_start]; try lia; tauto. Qed.

Lemma announced_seq c s rest : utf8_seq c s -> announced (s ++ rest) = len s /\ ~ low_start (s ++ rest).
Proof.
  intros H. destruct H as [c [Hc Hns]|c Hc].
  - pose proof (utf8_bytes_shape c ltac:(lia)) as S. unfold surrogate in Hns.
    inversion S as [E|u0 u1 E|u0 u1 u2 E|u0 u1 u2 u3 E|u0 u1 u2 u3 u4 E|u0 u1 u2 u3 u4 u5 E]; subst; unfold len; cbn [app length announced low_start];
      (split; [ifs; lia|try tauto; try lia]).
    destruct rest; cbn; lia.
  - destruct (utf16_units_supp c Hc) as (h & l & Eu & Hh & Hl & _). rewrite Eu. cbn [flat_map]. rewrite app_nil_r.
    unfold high_surrogate in Hh. unfold low_surrogate in Hl.
    destruct (surrogate_shape h _ ltac:(unfold surrogate; lia) (utf8_bytes_shape h ltac:(lia))) as (a & b & E1 & Ha & Hb & E2).
    destruct (surrogate_shape l _ ltac:(unfold surrogate; lia) (utf8_bytes_shape l ltac:(lia))) as (a' & b' & E1' & Ha' & Hb' & E2').
    rewrite E1, E1'. unfold len; cbn [app length announced low_start]. split; [|lia]. ifs; lia.
Qed.

Lemma cut_announced t q : cut_short t -> len t < announced (t ++ q).
Proof.
  intros H. destruct H as [b n conts Hl Hn Hc|a b Ha Hb|a b x conts Ha Hb Hx Hn Hc].
  - rewrite len_cons. unfold len. cbn [app announced]. unfold lead in Hl.
    destruct (conts ++ q) as [|y [|z r]]; ifs; lia.
  - unfold len. cbn [app announced length]. unfold continuation in *. ifs; lia.
  - unfold len. cbn [app announced length]. unfold continuation in *. ifs; lia.
Qed.

(* ---------------------------------------------------------------- the surrogate tests look at two bytes *)

Lemma mod16_e b : 0xE0 <= b <= 0xEF -> b mod 16 = b - 0xE0. Proof. lia. Qed.

Lemma raw3_value b x y : 0xE0 <= b <= 0xEF -> 0 <= x < 0x100 -> 0 <= y < 0x100 ->
  rawDecodeUtf8_3 b x y = (b - 0xE0) * 0x1000 + (x mod 64) * 0x40 + y mod 64.
Proof.
  intros Hb Hx Hy. unfold rawDecodeUtf8_3, wrap16. autorewrite with bits.
  replace (b mod 16) with (b - 0xE0) by lia. rewrite Z.mod_small by lia. reflexivity.
Qed.

Lemma second_half_start b x y : 0xE0 <= b <= 0xEF -> 0 <= x < 0x100 -> 0 <= y < 0x100 ->
  isSecondHalfUtf16 (rawDecodeUtf8_3 b x y) = (b =? 0xED) && ((x / 16) mod 4 =? 3).
Proof. intros Hb Hx Hy. rewrite raw3_value by assumption. unfold isSecondHalfUtf16. lia. Qed.
Lemma first_half_start b x y : 0xE0 <= b <= 0xEF -> 0 <= x < 0x100 -> 0 <= y < 0x100 ->
  isFirstHalfUtf16 (rawDecodeUtf8_3 b x y) = (b =? 0xED) && ((x / 16) mod 4 =? 2).
Proof. intros Hb Hx Hy. rewrite raw3_value by assumption. unfold isFirstHalfUtf16. lia. Qed.

(* ---------------------------------------------------------------- lengthCheck *)

Definition low_start_b (bs : list Z) : bool :=
  match bs with b :: x :: _ => (b =? 0xED) && ((x / 16) mod 4 =? 3) | _ => false end.
Lemma low_start_dec bs : low_start_b bs = true <-> low_start bs.
Proof. destruct bs as [|b [|x r]]; cbn; [split; [discriminate|tauto]..|lia]. Qed.

Definition sequence_lead (b : Z) : bool := (b <=? 0x7F) || (0xBF <? b) && (b <=? 0xFD).

(* the check, for a byte that starts a sequence; [after] is what lies behind the n bytes *)
Lemma lengthCheck_spec {A} bs after (ooo oos : A) k : bytes (bs ++ after) -> bs <> [] -> 0 < hd 0 bs ->
  sequence_lead (hd 0 bs) = true -> 2 < len bs \/ after <> [] \/ ~ (0xE0 <= hd 0 bs <= 0xEF) \/ len bs < 2 ->
  lengthCheck (bs ++ after) (hd 0 bs) (len bs) ooo oos k =
    if low_start_b bs then Done ooo else if len bs <? announced bs then Done oos else k (announced bs).
Proof.
  intros Hby Hne Hpos Hlead Hsafe. unfold sequence_lead in Hlead. destruct bs as [|b r]; [congruence|]. cbn [hd] in *.
  unfold lengthCheck, sequenceSizeCharStarts.
  assert (Hb : 0 < b <= 0xFD) by lia.
  replace (b =? 0) with false by lia.
  destruct (b <=? 0x7f) eqn:E1.
  { change (wrap32 1) with 1. cbn [Z.eqb Pos.eqb].
    replace (low_start_b (b :: r)) with false by (destruct r; cbn; [reflexivity|lia]).
    replace (announced (b :: r)) with 1 by (cbn [announced]; replace (b <=? 0xBF) with true by lia; reflexivity).
    rewrite Z.gtb_ltb. reflexivity. }
  replace (b <=? 0xbf) with false by lia.
  destruct (b <=? 0xdf) eqn:E2.
  { change (wrap32 2) with 2. cbn [Z.eqb Pos.eqb].
    replace (low_start_b (b :: r)) with false by (destruct r; cbn; [reflexivity|lia]).
    replace (announced (b :: r)) with 2 by (cbn [announced]; replace (b <=? 0xBF) with false by lia; rewrite E2; reflexivity).
    rewrite Z.gtb_ltb. reflexivity. }
  destruct (b <=? 0xef) eqn:E3.
  2:{ replace (low_start_b (b :: r)) with false by (destruct r; cbn; [reflexivity|lia]).
      replace (announced (b :: r)) with (if b <=? 0xf7 then 4 else if b <=? 0xfb then 5 else if b <=? 0xfd then 6 else 1)
        by (cbn [announced]; replace (b <=? 0xBF) with false by lia; rewrite E2, E3; reflexivity).
      replace (b <=? 0xfd) with true by lia.
      destruct (b <=? 0xf7); [|destruct (b <=? 0xfb)];
        [change (wrap32 4) with 4|change (wrap32 5) with 5|change (wrap32 6) with 6]; cbn [Z.eqb Pos.eqb]; rewrite Z.gtb_ltb; reflexivity. }
  change (wrap32 3) with 3. cbn [Z.eqb Pos.eqb].
  assert (Hb3 : 0xE0 <= b <= 0xEF) by lia.
  destruct r as [|x r].
  { change (len [b]) with 1. cbn [Z.gtb Z.geb Z.compare Pos.compare Pos.compare_cont bind low_start_b announced].
    replace (b <=? 0xBF) with false by lia. rewrite E2, E3. reflexivity. }
  assert (Hx : 0 <= x < 0x100).
  { apply Forall_cons_inv in Hby. destruct Hby as [_ Hby]. apply Forall_cons_inv in Hby. exact (proj1 Hby). }
  replace (len (b :: x :: r) >? 1) with true by (rewrite !len_cons; pose proof (len_pos r); lia).
  destruct ((b :: x :: r) ++ after) as [|b' [|x' [|y q]]] eqn:Eq; try (cbn in Eq; discriminate).
  { exfalso. cbn in Eq. injection Eq as <- <- Eq. apply app_eq_nil in Eq. destruct Eq as [-> ->].
    unfold len in Hsafe; cbn [length] in Hsafe. destruct Hsafe as [?|[?|[?|?]]]; [lia|congruence|lia|lia]. }
  cbn in Eq. injection Eq as <- <- Eq.
  assert (Hy : 0 <= y < 0x100).
  { do 2 (apply Forall_cons_inv in Hby; destruct Hby as [_ Hby]). apply Forall_cons_inv in Hby. exact (proj1 Hby). }
  unfold isSecondHalfUtf16AsUtf8, isFirstHalfUtf16AsUtf8. cbn [index nth_error bind].
  rewrite second_half_start, first_half_start by lia. cbn [low_start_b].
  destruct ((b =? 0xED) && ((x / 16) mod 4 =? 3)) eqn:Elow; [reflexivity|].
  destruct r as [|y' r].
  - change (len [b; x]) with 2. cbn [Z.geb Z.compare Pos.compare Pos.compare_cont bind Z.gtb announced].
    replace (b <=? 0xBF) with false by lia. rewrite E2, E3. reflexivity.
  - replace (len (b :: x :: y' :: r) >=? 3) with true by (rewrite !len_cons; pose proof (len_pos r); lia). cbn [bind].
    cbn [announced]. replace (b <=? 0xBF) with false by lia. rewrite E2, E3. rewrite Z.gtb_ltb. reflexivity.
Qed.

(* two of three bytes at the very end of the array: the third is read *)
Lemma lengthCheck_over {A} b x (ooo oos : A) k : 0xE0 <= b <= 0xEF -> 
  lengthCheck [b; x] b 2 ooo oos k = Undefined.
Proof.
  intros H. unfold lengthCheck, sequenceSizeCharStarts. replace (b =? 0) with false by lia.
  replace (b <=? 0x7f) with false by lia. replace (b <=? 0xbf) with false by lia. replace (b <=? 0xdf) with false by lia.
  replace (b <=? 0xef) with true by lia. reflexivity.
Qed.

(* a byte that starts nothing counts as an endless sequence *)
Lemma lengthCheck_no_lead {A} p b n (ooo oos : A) k : 0 < b < 0x100 -> sequence_lead b = false -> n < 0xFFFFFFFF ->
  lengthCheck p b n ooo oos k = Done oos.
Proof.
  intros H Hl Hn. unfold sequence_lead in Hl. unfold lengthCheck, sequenceSizeCharStarts. replace (b =? 0) with false by lia.
  replace (b <=? 0x7f) with false by lia. destruct (b <=? 0xbf) eqn:E.
  - change (wrap32 (-1)) with 0xFFFFFFFF. cbn [Z.eqb Pos.eqb]. now replace (0xFFFFFFFF >? n) with true by lia.
  - replace (b <=? 0xdf) with false by lia. replace (b <=? 0xef) with false by lia. replace (b <=? 0xf7) with false by lia.
    replace (b <=? 0xfb) with false by lia. replace (b <=? 0xfd) with false by lia.
    change (wrap32 (-1)) with 0xFFFFFFFF. cbn [Z.eqb Pos.eqb]. now replace (0xFFFFFFFF >? n) with true by lia.
Qed.

(* ---------------------------------------------------------------- decoding what fits *)

(* what decodeUtf8 does to a sequence that fits into the n bytes *)
Inductive fitted (bs after : list Z) : Prop :=
| fit_ok c s rest : bs = s ++ rest -> utf8_seq c s -> decodeUtf8 (bs ++ after) = Done (c, At (last s 0 :: rest ++ after)) -> fitted bs after
| fit_zero t more : bs = t ++ 0 :: more -> cut_short t -> decodeUtf8 (bs ++ after) = Done (0, At (0 :: more ++ after)) -> fitted bs after
| fit_bad : decodeUtf8 (bs ++ after) = Done (0, Null) -> fitted bs after.

Lemma fitted_cases bs after : bs <> [] -> 0 < hd 0 bs -> announced bs <= len bs -> fitted bs after.
Proof.
  intros Hne Hpos Ha. pose proof (announced_app bs after Hne Ha) as Eann.
  assert (Hhd : hd 0 (bs ++ after) = hd 0 bs) by (destruct bs; [congruence|reflexivity]).
  pose proof (decodeUtf8_cases (bs ++ after) ltac:(rewrite Hhd; lia)) as D. remember (decodeUtf8 (bs ++ after)) as res eqn:ED.
  destruct D as [c s rest E Hs|rest E|t junk E Ht| |[E|Hc]].
  - destruct (app_prefix bs after s rest E) as (r & -> & ->).
    { rewrite E in Eann. destruct (announced_seq c s rest Hs) as [E1 _]. lia. }
    eapply fit_ok; [reflexivity|exact Hs|now symmetry].
  - rewrite E in Hhd. cbn in Hhd. lia.
  - replace (t ++ 0 :: junk) with ((t ++ [0]) ++ junk) in E by now rewrite <- app_assoc.
    destruct (app_prefix bs after (t ++ [0]) junk E) as (r & -> & ->).
    { pose proof (cut_announced t (0 :: junk) Ht) as H1.
      replace (t ++ 0 :: junk) with ((t ++ [0]) ++ junk) in H1 by now rewrite <- app_assoc.
      rewrite <- E in H1. rewrite len_app. change (len [0]) with 1. lia. }
    eapply (fit_zero _ _ t r); [now rewrite <- app_assoc|exact Ht|now symmetry].
  - apply fit_bad. now symmetry.
  - destruct bs; [congruence|discriminate].
  - pose proof (cut_announced _ [] Hc) as H1. rewrite app_nil_r in H1. rewrite len_app in H1. pose proof (len_pos after). lia.
Qed.
