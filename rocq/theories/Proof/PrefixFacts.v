(* Prefixes of texts. *)
From Coq Require Import ZArith List Bool Lia ZifyBool.
From Verif Require Import Machine.
From Verif.Model Require Import Internal Decode Tables Predicate Str.
From Verif.Spec Require Import Utf Target Result Prefix.
From Verif.Proof Require Import Bits Encode DecodeFacts TextFacts ToFuncs IsFuncs Lenient LengthFuncs Round Consequences Calls.
Import ListNotations.
Local Open Scope Z_scope.

(* ---------------------------------------------------------------- UTF-8 *)

Lemma cut_prefix t a b : cut_short t -> t = a ++ b -> a <> [] -> cut_short a.
Proof.
  intros Ht E Hne. destruct b as [|x b]; [rewrite app_nil_r in E; now subst|].
  destruct (app_prefix_cases a (x :: b) t E) as (n & Hn & ->); [discriminate|assumption|]. clear E Hne x b.
  destruct Ht as [b k conts Hl Hlen Hc|a b Ha Hb|a b x conts Ha Hb Hx Hlen Hc].
  - destruct n as [|n]; [lia|]. cbn [firstn]. apply (cut_plain b k); [assumption| |now apply Forall_firstn].
    rewrite firstn_length. lia.
  - unfold continuation in Hb. cbn [length] in Hn. destruct n as [|[|[|n]]]; try lia; cbn [firstn].
    + apply (cut_plain 0xED 3); [unfold lead; lia|cbn; lia|constructor].
    + apply (cut_plain 0xED 3); [unfold lead; lia|cbn; lia|repeat constructor; unfold continuation; lia].
  - unfold continuation in Hb. cbn [length] in Hn. destruct n as [|[|[|[|n]]]]; try lia; cbn [firstn].
    + apply (cut_plain 0xED 3); [unfold lead; lia|cbn; lia|constructor].
    + apply (cut_plain 0xED 3); [unfold lead; lia|cbn; lia|repeat constructor; unfold continuation; lia].
    + now apply cut_pair0.
    + apply cut_pair1; auto; [rewrite firstn_length; lia|now apply Forall_firstn].
Qed.

Lemma hd_app (a b : list Z) : a <> [] -> hd 0 (a ++ b) = hd 0 a.
Proof. destruct a; [congruence|reflexivity]. Qed.

Lemma accepted8_prefix (ok tl : Z -> Prop) cs body : utf8_text cs body -> Forall ok cs ->
  (forall c s, utf8_seq c s -> ok c -> (1 < length s)%nat -> tl (hd 0 s)) ->
  forall tail a b, (tail = [] \/ cut_short tail /\ tl (hd 0 tail)) -> body ++ tail = a ++ b ->
  exists cs1 cs2 body1 tail1, cs = cs1 ++ cs2 /\ a = body1 ++ tail1 /\ utf8_text cs1 body1 /\ Forall ok cs1 /\
    (tail1 = [] \/ cut_short tail1 /\ tl (hd 0 tail1)).
Proof.
  intros Hb Hf Hlead. induction Hb as [|c s cs bs Hs Hb IH]; intros tail a b Ht E.
  - exists [], [], [], a. repeat (split; [constructor|]). destruct a as [|x a]; [now left|right].
    cbn [app] in E. destruct Ht as [->|[Ht Htl]]; [discriminate|].
    split; [eapply cut_prefix; [exact Ht|exact E|discriminate]|]. now rewrite E in Htl.
  - apply Forall_cons_inv in Hf. destruct Hf as [Hc Hf]. rewrite <- app_assoc in E.
    destruct (app_eq_app _ _ _ _ E) as (l & [[E1 E2]|[E1 E2]]).
    + destruct a as [|x a].
      { exists [], (c :: cs), [], []. repeat split; [constructor|constructor|now left]. }
      destruct l as [|y l].
      { rewrite app_nil_r in E1. exists [c], cs, s, []. rewrite app_nil_r. repeat split; [now symmetry| | |now left].
        - rewrite <- (app_nil_r s). constructor; [assumption|constructor].
        - now repeat constructor. }
      exists [], (c :: cs), [], (x :: a). repeat split; [constructor|constructor|right]. split.
      * eapply completable_cut; [exact Hs|exact E1|discriminate|discriminate].
      * change (hd 0 (x :: a)) with (hd 0 ((x :: a) ++ y :: l)). rewrite <- E1. apply (Hlead c); auto.
        rewrite E1, app_length. cbn [length]. lia.
    + destruct (IH Hf _ _ _ Ht E2) as (cs1 & cs2 & body1 & tail1 & -> & -> & Hb1 & Hf1 & Ht1).
      exists (c :: cs1), cs2, (s ++ body1), tail1. rewrite <- app_assoc. repeat split; auto.
      constructor; assumption.
Qed.

Lemma acceptable8_prefix (ok tl : Z -> Prop) a b :
  (forall c s, utf8_seq c s -> ok c -> (1 < length s)%nat -> tl (hd 0 s)) ->
  acceptable8 ok tl (a ++ b) -> acceptable8 ok tl a.
Proof.
  intros Hl (cs & body & tail & E & Hb & Hf & Ht). symmetry in E.
  destruct (accepted8_prefix ok tl cs body Hb Hf Hl _ _ _ Ht E) as (cs1 & _ & body1 & tail1 & _ & H1 & H2 & H3 & H4).
  exists cs1, body1, tail1. auto.
Qed.

Lemma reads_prefix cs a b : reads_as cs (a ++ b) -> exists cs1 cs2, cs = cs1 ++ cs2 /\ reads_as cs1 a.
Proof.
  intros (body & tail & E & Hb & Ht). symmetry in E.
  destruct (accepted8_prefix (fun _ => True) (fun _ => True) cs body Hb) with (tail := tail) (a := a) (b := b)
    as (cs1 & cs2 & body1 & tail1 & H1 & H2 & H3 & _ & H4); auto.
  - clear. induction cs; constructor; auto.
  - tauto.
  - exists cs1, cs2. split; [assumption|]. exists body1, tail1. tauto.
Qed.

Lemma range_lead t c s : utf8_seq c s -> range_isUtf8 t c -> (1 < length s)%nat -> possible_lead t (hd 0 s).
Proof.
  intros Hs Hr Hlen. pose proof (lead_of_seq _ _ Hs) as Hl. pose proof (seq_range _ _ Hs) as [Hrg _].
  unfold range_isUtf8, documented, bmp, scalar in Hr. destruct t; cbn [possible_lead]; lia.
Qed.

Lemma text8_prefix a b : text8 (a ++ b) -> text8 a.
Proof. intros H. now apply text8_app in H. Qed.

Lemma returns_true (f : ptr -> outcome bool) us P : (forall junk, answers Done (f (At (us ++ 0 :: junk))) P) ->
  returns f us true <-> P.
Proof.
  intros H. split.
  - intros R. exact (answers_true_inv (H []) (R [])).
  - intros Hp junk. exact (answers_true (H junk) Hp).
Qed.

Lemma isUtf8_cuts T pred t : cuts_to_true text8 (fun p => isUtf8 T p (code t) pred).
Proof.
  intros a b Ht R. apply (returns_true _ _ _ (fun junk => isUtf8_exact T _ junk t pred Ht)) in R.
  apply (returns_true _ _ _ (fun junk => isUtf8_exact T a junk t pred (text8_prefix _ _ Ht))).
  eapply acceptable8_prefix; [|exact R]. intros c s Hs [Hr _] Hl. now apply (range_lead t c).
Qed.

(* ---------------------------------------------------------------- UTF-16 *)

Lemma Forall_prefix {A} (P : A -> Prop) a b : Forall P (a ++ b) -> Forall P a.
Proof. intros H. now apply Forall_app in H. Qed.

(* any reading by code points whose units are one value or a pair *)
Lemma units_prefix (P : Z -> Prop) cs : (forall c, P c -> lax c) -> Forall P cs ->
  forall tail a b, (tail = [] \/ exists h, tail = [h] /\ high_surrogate h) -> flat_map utf16_units cs ++ tail = a ++ b ->
  exists cs1 cs2 tail1, cs = cs1 ++ cs2 /\ a = flat_map utf16_units cs1 ++ tail1 /\
    (tail1 = [] \/ exists h, tail1 = [h] /\ high_surrogate h /\ (tail = [h] \/ exists c, In c cs /\ 0x10000 <= c)).
Proof.
  intros HP Hf. induction Hf as [|c cs Hc Hf IH]; intros tail a b Ht E.
  - exists [], [], a. split; [reflexivity|]. split; [reflexivity|]. cbn [flat_map app] in E. destruct a as [|x a]; [now left|right].
    destruct Ht as [->|(h & -> & Hh)]; [discriminate|]. injection E as -> E. symmetry in E. apply app_eq_nil in E.
    destruct E as [-> ->]. exists x. auto.
  - cbn [flat_map] in E. rewrite <- app_assoc in E.
    destruct (lax_cases c (HP c Hc)) as [(Eu & _)|(h & l & Eu & Hh & Hl & Ec)]; rewrite Eu in E; cbn [app] in E.
    + destruct a as [|x a]; [exists [], (c :: cs), []; repeat split; now left|]. injection E as -> E.
      destruct (IH _ _ _ Ht E) as (cs1 & cs2 & tail1 & -> & -> & Ht1). exists (x :: cs1), cs2, tail1.
      cbn [flat_map]. rewrite Eu. repeat split. destruct Ht1 as [->|(h & -> & Hh & [->|(c & Hin & Hc')])]; [now left| |].
      * right. exists h. auto.
      * right. exists h. split; [reflexivity|]. split; [assumption|]. right. exists c. split; [right; exact Hin|assumption].
    + destruct a as [|x [|y a]].
      * exists [], (c :: cs), []. repeat split. now left.
      * injection E as -> E. exists [], (c :: cs), [x]. repeat split. right. exists x. split; [reflexivity|]. split; [assumption|]. right. exists c.
        split; [now left|]. rewrite Ec. unfold pair_value, high_surrogate, low_surrogate in *. lia.
      * injection E as -> -> E.
        destruct (IH _ _ _ Ht E) as (cs1 & cs2 & tail1 & -> & -> & Ht1). exists (c :: cs1), cs2, tail1.
        cbn [flat_map]. rewrite Eu. repeat split. destruct Ht1 as [->|(h & -> & Hh' & [->|(c' & Hin & Hc')])]; [now left| |].
        -- right. exists h. auto.
        -- right. exists h. split; [reflexivity|]. split; [assumption|]. right. exists c'. split; [right; exact Hin|assumption].
Qed.

Lemma acceptable16_prefix (ok : Z -> Prop) (tl : Prop) a b : (forall c, ok c -> 0x10000 <= c -> tl) ->
  acceptable16 ok tl (a ++ b) -> acceptable16 ok tl a.
Proof.
  intros Htl (cs & body & tail & E & [Hs ->] & Hf & Ht). symmetry in E.
  destruct (units_prefix scalar cs) with (tail := tail) (a := a) (b := b)
    as (cs1 & cs2 & tail1 & -> & -> & Ht1); auto; [now left|tauto|].
  exists cs1, (flat_map utf16_units cs1), tail1. repeat split; eauto using Forall_prefix.
  destruct Ht1 as [->|(h & -> & Hh & [->|(c & Hin & Hc)])]; [now left| |].
  - right. destruct Ht as [Ht|[Ht _]]; [discriminate|]. eauto.
  - right. split; [|eauto]. rewrite Forall_forall in Hf. apply (Htl c); auto.
Qed.

Lemma reads16_prefix cs a b : reads_as16 cs (a ++ b) -> exists cs1 cs2, cs = cs1 ++ cs2 /\ reads_as16 cs1 a.
Proof.
  intros (body & tail & E & [Hs ->] & Ht). symmetry in E.
  destruct (units_prefix scalar cs) with (tail := tail) (a := a) (b := b)
    as (cs1 & cs2 & tail1 & -> & -> & Ht1); auto; [now left|].
  exists cs1, cs2. split; [reflexivity|]. exists (flat_map utf16_units cs1), tail1.
  repeat split; eauto using Forall_prefix. destruct Ht1 as [->|(h & -> & Hh & _)]; [now left|right; eauto].
Qed.

Lemma lenient_prefix cs a b : lenient_as16 cs (a ++ b) -> exists cs1 cs2, cs = cs1 ++ cs2 /\ lenient_as16 cs1 a.
Proof.
  intros (tail & E & Hs & Ht). symmetry in E.
  destruct (units_prefix lax cs) with (tail := tail) (a := a) (b := b)
    as (cs1 & cs2 & tail1 & -> & -> & Ht1); auto.
  exists cs1, cs2. split; [reflexivity|]. exists tail1.
  repeat split; eauto using Forall_prefix. destruct Ht1 as [->|(h & -> & Hh & _)]; [now left|right; eauto].
Qed.

Lemma isUtf16_cuts T pred t : cuts_to_true text16 (fun p => isUtf16 T p (code t) pred).
Proof.
  intros a b Ht R. apply (returns_true _ _ _ (fun junk => isUtf16_exact T _ junk t pred Ht)) in R.
  apply (returns_true _ _ _ (fun junk => isUtf16_exact T a junk t pred (Forall_prefix _ _ _ Ht))).
  eapply acceptable16_prefix; [|exact R]. intros c [Hr _] Hc. unfold supplementary_target.
  destruct t; cbn in Hr; unfold bmp in Hr; split; try discriminate; lia.
Qed.
Lemma isUcs2_cuts T pred t : cuts_to_true text16 (fun p => isUcs2 T p (code t) pred).
Proof.
  intros a b Ht R. apply (returns_true _ _ _ (fun junk => isUcs2_exact T _ junk t pred Ht)) in R.
  apply (returns_true _ _ _ (fun junk => isUcs2_exact T a junk t pred (Forall_prefix _ _ _ Ht))).
  now apply Forall_prefix in R.
Qed.
Lemma isUcs4_cuts T pred t : cuts_to_true text32 (fun p => isUcs4 T p (code t) pred).
Proof.
  intros a b Ht R. apply (returns_true _ _ _ (fun junk => isUcs4_exact T _ junk t pred Ht)) in R.
  apply (returns_true _ _ _ (fun junk => isUcs4_exact T a junk t pred (Forall_prefix _ _ _ Ht))).
  now apply Forall_prefix in R.
Qed.

(* ---------------------------------------------------------------- conversions *)

Lemma returns_unique {A} (f : ptr -> outcome A) us v w : returns f us v -> returns f us w -> v = w.
Proof. intros H1 H2. specialize (H1 []). specialize (H2 []). congruence. Qed.

Lemma flat_map_prefix (enc : Z -> list Z) cs1 cs2 : prefix (flat_map enc cs1) (flat_map enc (cs1 ++ cs2)).
Proof. exists (flat_map enc cs2). apply flat_map_app. Qed.

Lemma cuts_8 (f : ptr -> outcome (list Z)) (P : list Z -> Prop) enc : (forall a b, P (a ++ b) -> P a) ->
  (forall us, text8 us -> (exists cs, (reads_as cs us /\ P cs) /\ returns f us (flat_map enc cs)) \/ returns f us []) ->
  (forall us cs, text8 us -> reads_as cs us -> P cs -> returns f us (flat_map enc cs)) -> cuts_to_prefix text8 f.
Proof.
  intros HP Htot Hex a b r Ht R Hne. destruct (Htot _ Ht) as [(cs & [Hr Hp] & Hf)|Hf].
  - rewrite (returns_unique f _ _ _ R Hf). destruct (reads_prefix _ _ _ Hr) as (cs1 & cs2 & -> & H1).
    exists (flat_map enc cs1). split; [|apply flat_map_prefix]. apply Hex; eauto using text8_prefix.
  - now rewrite (returns_unique f _ _ _ R Hf) in Hne.
Qed.

Lemma toUcs4_8_cuts : cuts_to_prefix text8 toUcs4_8.
Proof.
  apply (cuts_8 _ (fun _ => True) (fun c => [c])); [auto| |].
  - intros us H. destruct (toUcs4_8_total us H) as [(cs & Hr & Hf)|[_ Hf]]; [left|now right]. exists cs. now rewrite flat_map_single.
  - intros us cs H Hr _ junk. rewrite flat_map_single. now apply (proj1 (toUcs4_8_exact us junk H)).
Qed.
Lemma toUtf16_8_cuts : cuts_to_prefix text8 toUtf16_8.
Proof.
  apply (cuts_8 _ (Forall (fun c => c <= 0x10FFFF)) utf16_units); [apply Forall_prefix| |].
  - intros us H. destruct (toUtf16_8_total us H) as [(cs & Hr & Hf)|[_ Hf]]; [left|now right]. now exists cs.
  - intros us cs H Hr Hp junk. now apply (proj1 (toUtf16_8_exact us junk H)).
Qed.
Lemma toUcs2_8_cuts : cuts_to_prefix text8 toUcs2_8.
Proof.
  apply (cuts_8 _ (Forall (fun c => c <= 0xFFFF)) (fun c => [c])); [apply Forall_prefix| |].
  - intros us H. destruct (toUcs2_8_total us H) as [(cs & Hr & Hf)|[_ Hf]]; [left|now right]. exists cs. now rewrite flat_map_single.
  - intros us cs H Hr Hp junk. rewrite flat_map_single. now apply (proj1 (toUcs2_8_exact us junk H)).
Qed.
Lemma toUcs4_16_cuts : cuts_to_prefix text16 toUcs4_16.
Proof.
  intros a b r Ht R Hne. destruct (toUcs4_16_total _ Ht) as [(cs & Hr & Hf)|[_ Hf]]; rewrite (returns_unique _ _ _ _ R Hf) in *; [|congruence].
  destruct (reads16_prefix _ _ _ Hr) as (cs1 & cs2 & -> & H1). exists cs1. split; [|now exists cs2].
  intros junk. now apply (proj1 (toUcs4_16_exact a junk (Forall_prefix _ _ _ Ht))).
Qed.
Lemma toUtf8_16_cuts : cuts_to_prefix text16 toUtf8_16.
Proof.
  intros a b r Ht R Hne. destruct (toUtf8_16_total _ Ht) as [(cs & Hr & Hf)|[_ Hf]]; rewrite (returns_unique _ _ _ _ R Hf) in *; [|congruence].
  destruct (lenient_prefix _ _ _ Hr) as (cs1 & cs2 & -> & H1). exists (flat_map utf8_bytes cs1). split; [|apply flat_map_prefix].
  intros junk. now apply (proj1 (toUtf8_16_exact a junk (Forall_prefix _ _ _ Ht))).
Qed.
Lemma cuts_32 f P enc : (forall c, P c \/ ~ P c) ->
  (forall us junk, text32 us -> encodes_or_empty P enc us (f (At (us ++ 0 :: junk)))) -> cuts_to_prefix text32 f.
Proof.
  intros Hd He a b r Ht R Hne.
  destruct (encodes_total f P enc _ Hd (fun junk => He _ junk Ht)) as [[Hr Hf]|[_ Hf]]; rewrite (returns_unique _ _ _ _ R Hf) in *; [|congruence].
  exists (flat_map enc a). split; [|apply flat_map_prefix].
  intros junk. apply (proj1 (He a junk (Forall_prefix _ _ _ Ht))). eauto using Forall_prefix.
Qed.
Lemma toUtf8_32_cuts : cuts_to_prefix text32 toUtf8_32.
Proof. apply (cuts_32 _ encodable8 utf8_bytes encodable8_dec). intros. now apply toUtf8_32_exact. Qed.
Lemma toUtf16_32_cuts : cuts_to_prefix text32 toUtf16_32.
Proof. apply (cuts_32 _ scalar utf16_units scalar_dec). intros. now apply toUtf16_32_exact. Qed.
Lemma toUcs2_32_cuts : cuts_to_prefix text32 toUcs2_32.
Proof. apply (cuts_32 _ bmp (fun c => [c]) bmp_dec). intros. now apply toUcs2_32_exact. Qed.

(* ---------------------------------------------------------------- sizes *)

Lemma len_app_z (a b : list Z) : len (a ++ b) = len a + len b.
Proof. unfold len. rewrite app_length. lia. Qed.
Lemma len_nonneg (a : list Z) : 0 <= len a.
Proof. unfold len. lia. Qed.

Lemma flat_map_len (enc : Z -> list Z) lo hi cs : (forall c, In c cs -> lo <= len (enc c) <= hi) ->
  lo * len cs <= len (flat_map enc cs) <= hi * len cs.
Proof.
  induction cs as [|c cs IH]; intros H; [cbn; lia|]. cbn [flat_map]. rewrite len_app_z.
  specialize (IH (fun x Hx => H x (or_intror Hx))). specialize (H c (or_introl eq_refl)).
  replace (len (c :: cs)) with (1 + len cs) by (unfold len; cbn [length]; lia). lia.
Qed.

Lemma utf8_bytes_len c : 0 < c -> 1 <= len (utf8_bytes c) <= 6 /\ (c <= 0x10FFFF -> len (utf8_bytes c) <= 4) /\ (c <= 0xFFFF -> len (utf8_bytes c) <= 3) /\ (0x10000 <= c -> 4 <= len (utf8_bytes c)).
Proof.
  intros Hc. unfold utf8_bytes. repeat match goal with |- context [if ?b then _ else _] => destruct b eqn:? end; cbn; lia.
Qed.
Lemma utf16_units_len c : 1 <= len (utf16_units c) <= 2 /\ (c <= 0xFFFF -> len (utf16_units c) = 1) /\ (0x10000 <= c -> len (utf16_units c) = 2).
Proof. unfold utf16_units. destruct (c <? 0x10000) eqn:E; cbn; lia. Qed.

Lemma cut_len t : cut_short t -> 1 <= len t <= 5.
Proof.
  intros [b n conts Hl Hlen Hc|a b Ha Hb|a b x conts Ha Hb Hx Hlen Hc]; unfold len in *; cbn [length]; unfold lead in *; lia.
Qed.

(* bytes per character *)
Lemma seq_len c s : utf8_seq c s -> 1 <= len s <= 6 /\ (c <= 0xFFFF -> len s <= 3) /\ (0x10000 <= c -> 4 <= len s).
Proof.
  intros [c' [Hc _]|c' Hc].
  - pose proof (utf8_bytes_len c' ltac:(lia)). lia.
  - destruct (utf16_units_supp c' Hc) as (h & l & -> & Hh & Hl & _). unfold high_surrogate, low_surrogate in *.
    cbn [flat_map]. rewrite app_nil_r, len_app_z. pose proof (utf8_bytes_len h ltac:(lia)) as Bh.
    pose proof (utf8_bytes_len l ltac:(lia)) as Bl.
    assert (3 <= len (utf8_bytes h)) by (unfold utf8_bytes; replace (h <? 0x80) with false by lia;
      replace (h <? 0x800) with false by lia; replace (h <? 0x10000) with true by lia; cbn; lia).
    assert (3 <= len (utf8_bytes l)) by (unfold utf8_bytes; replace (l <? 0x80) with false by lia;
      replace (l <? 0x800) with false by lia; replace (l <? 0x10000) with true by lia; cbn; lia).
    lia.
Qed.

Lemma text_len (enc : Z -> list Z) k (P : Z -> Prop) cs bs : utf8_text cs bs -> Forall P cs ->
  (forall c s, P c -> utf8_seq c s -> len (enc c) <= len s <= k * len (enc c)) ->
  len (flat_map enc cs) <= len bs <= k * len (flat_map enc cs).
Proof.
  intros Hb Hf Hs. induction Hb as [|c s cs bs Hseq Hb IH]; [cbn; lia|].
  apply Forall_cons_inv in Hf. destruct Hf as [Hc Hf]. cbn [flat_map]. rewrite !len_app_z.
  specialize (IH Hf). specialize (Hs c s Hc Hseq). lia.
Qed.

Lemma sized_8 (f : ptr -> outcome (list Z)) (P : Z -> Prop) enc k : 0 <= k ->
  (forall us, text8 us -> (exists cs, (reads_as cs us /\ Forall P cs) /\ returns f us (flat_map enc cs)) \/ returns f us []) ->
  (forall c s, P c -> utf8_seq c s -> len (enc c) <= len s <= k * len (enc c)) -> sized text8 1 k 5 f.
Proof.
  intros Hk Htot Hs us r Ht R. destruct (Htot us Ht) as [(cs & [(body & tail & -> & Hb & Htl) Hp] & Hf)|Hf];
    rewrite (returns_unique _ _ _ _ R Hf).
  - pose proof (text_len enc k P cs body Hb Hp Hs). rewrite len_app_z. pose proof (len_nonneg tail).
    split; [lia|]. intros _. destruct Htl as [->|Htl]; [cbn; lia|]. pose proof (cut_len _ Htl). lia.
  - split; [pose proof (len_nonneg us); cbn [len length]; unfold len at 1; cbn [length]; lia|congruence].
Qed.

Lemma Forall_true {A} (l : list A) : Forall (fun _ => True) l.
Proof. induction l; constructor; auto. Qed.

Lemma toUcs4_8_sized : sized text8 1 6 5 toUcs4_8.
Proof.
  apply (sized_8 _ (fun _ => True) (fun c => [c])); [lia| |].
  - intros us H. destruct (toUcs4_8_total us H) as [(cs & Hr & Hf)|[_ Hf]]; [left|now right]. exists cs. rewrite flat_map_single.
    auto using Forall_true.
  - intros c s _ Hs. pose proof (seq_len _ _ Hs). unfold len at 1 4. cbn [length]. lia.
Qed.
Lemma toUtf16_8_sized : sized text8 1 3 5 toUtf16_8.
Proof.
  apply (sized_8 _ (fun c => c <= 0x10FFFF) utf16_units); [lia| |].
  - intros us H. destruct (toUtf16_8_total us H) as [(cs & Hr & Hf)|[_ Hf]]; [left|now right]. now exists cs.
  - intros c s Hc Hs. pose proof (seq_len _ _ Hs). pose proof (utf16_units_len c). lia.
Qed.
Lemma toUcs2_8_sized : sized text8 1 3 5 toUcs2_8.
Proof.
  apply (sized_8 _ (fun c => c <= 0xFFFF) (fun c => [c])); [lia| |].
  - intros us H. destruct (toUcs2_8_total us H) as [(cs & Hr & Hf)|[_ Hf]]; [left|now right]. exists cs. now rewrite flat_map_single.
  - intros c s Hc Hs. pose proof (seq_len _ _ Hs). unfold len at 1 4. cbn [length]. lia.
Qed.

Lemma lenient_len (enc : Z -> list Z) hi k cs us : 1 <= hi -> 1 <= k -> lenient_as16 cs us ->
  (forall c, lax c -> len (enc c) <= hi * len (utf16_units c) /\ len (utf16_units c) <= k * len (enc c)) ->
  len (flat_map enc cs) <= hi * len us /\ len us <= k * len (flat_map enc cs) + 1.
Proof.
  intros Hhi Hk (tail & -> & Hf & Ht) Hs. rewrite len_app_z.
  assert (len (flat_map enc cs) <= hi * len (flat_map utf16_units cs) /\
          len (flat_map utf16_units cs) <= k * len (flat_map enc cs)) as [H1 H2].
  { clear Ht. induction Hf as [|c cs Hc Hf IH]; [cbn; lia|]. cbn [flat_map]. rewrite !len_app_z. specialize (Hs c Hc). lia. }
  assert (0 <= len tail <= 1) by (destruct Ht as [->|(h & -> & _)]; cbn; lia). lia.
Qed.
Lemma toUcs4_16_sized : sized text16 1 2 1 toUcs4_16.
Proof.
  intros us r Ht R. destruct (toUcs4_16_total us Ht) as [(cs & Hr & Hf)|[_ Hf]]; rewrite (returns_unique _ _ _ _ R Hf).
  - pose proof (lenient_len (fun c => [c]) 1 2 cs us ltac:(lia) ltac:(lia) (reads_lenient _ _ Hr)) as H. rewrite flat_map_single in H.
    destruct H; [|split; auto]. intros c _. pose proof (utf16_units_len c). unfold len at 1 4. cbn [length]. lia.
  - split; [pose proof (len_nonneg us); unfold len at 1; cbn [length]; lia|congruence].
Qed.
Lemma toUtf8_16_sized : sized text16 3 1 1 toUtf8_16.
Proof.
  intros us r Ht R. destruct (toUtf8_16_total us Ht) as [(cs & Hr & Hf)|[_ Hf]]; rewrite (returns_unique _ _ _ _ R Hf).
  - destruct (lenient_len utf8_bytes 3 1 cs us ltac:(lia) ltac:(lia) Hr); [|split; auto].
    intros c Hc. assert (0 < c <= 0x10FFFF) by (destruct Hc as [[Hc _]|Hc]; [|unfold low_surrogate in Hc]; lia).
    pose proof (utf16_units_len c). pose proof (utf8_bytes_len c ltac:(lia)). lia.
  - split; [pose proof (len_nonneg us); unfold len at 1; cbn [length]; lia|congruence].
Qed.
Lemma sized_32 f P enc hi : 0 <= hi -> (forall c, P c \/ ~ P c) -> (forall c, P c -> 1 <= len (enc c) <= hi) ->
  (forall us junk, text32 us -> encodes_or_empty P enc us (f (At (us ++ 0 :: junk)))) -> sized text32 hi 1 0 f.
Proof.
  intros Hhi Hd Hl He us r Ht R.
  destruct (encodes_total f P enc _ Hd (fun junk => He _ junk Ht)) as [[Hr Hf]|[_ Hf]]; rewrite (returns_unique _ _ _ _ R Hf).
  - destruct (flat_map_len enc 1 hi us); [|lia]. intros c Hin. apply Hl. rewrite Forall_forall in Hr. auto.
  - split; [pose proof (len_nonneg us); unfold len at 1; cbn [length]; lia|congruence].
Qed.
Lemma toUtf8_32_sized : sized text32 6 1 0 toUtf8_32.
Proof.
  apply (sized_32 _ encodable8 utf8_bytes); [lia|apply encodable8_dec| |intros; now apply toUtf8_32_exact].
  intros c [Hc _]. pose proof (utf8_bytes_len c ltac:(lia)). lia.
Qed.
Lemma toUtf16_32_sized : sized text32 2 1 0 toUtf16_32.
Proof.
  apply (sized_32 _ scalar utf16_units); [lia|apply scalar_dec| |intros; now apply toUtf16_32_exact].
  intros c _. pose proof (utf16_units_len c). lia.
Qed.
Lemma toUcs2_32_sized : sized text32 1 1 0 toUcs2_32.
Proof.
  apply (sized_32 _ bmp (fun c => [c])); [lia|apply bmp_dec| |intros; now apply toUcs2_32_exact].
  intros c _. cbn. lia.
Qed.
(* Unicode text needs at most four bytes per code point *)
Lemma toUtf8_32_sized_unicode : sized (fun us => Forall scalar us) 4 1 0 toUtf8_32.
Proof.
  intros us r Hs R.
  assert (Ht : text32 us) by (eapply Forall_impl; [|exact Hs]; intros c [Hc _]; lia).
  split; [|now apply (toUtf8_32_sized us r Ht R)].
  rewrite <- (returns_unique toUtf8_32 us (flat_map utf8_bytes us) r); [| |exact R].
  - destruct (flat_map_len utf8_bytes 1 4 us); [|lia]. intros c Hin. rewrite Forall_forall in Hs. destruct (Hs c Hin) as [Hc _].
    pose proof (utf8_bytes_len c ltac:(lia)). lia.
  - intros junk. apply (proj1 (toUtf8_32_exact us junk Ht)). eapply Forall_impl; [|exact Hs].
    intros c [Hc Hn]. split; [lia|assumption].
Qed.
