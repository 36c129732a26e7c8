(* Laws relating calls of the same function: splitting, joining, trimming, chains, classes, lengths,
   code pages. *)
From Coq Require Import ZArith List Bool Lia ZifyBool.
From Verif Require Import Machine.
From Verif.Model Require Import Internal Tables Predicate Str Lower CodePage SplitJoin Trim.
From Verif.Spec Require Import Utf Target Result Ucd Case Chain Text CodePage Laws.
From Verif.Proof Require Import Bits IsFuncs ToFuncs Round TextFacts LengthFuncs Consequences Calls Classes TablesFacts LowerTools CaseFacts
  LowerPairs LowerMore VersionFacts Predicates PrefixFacts SplitFacts TrimFacts CodePageFacts.
Import ListNotations.
Local Open Scope Z_scope.

(* ------------------------------------------------------------------ *)
(* Splitting and joining                                               *)
(* ------------------------------------------------------------------ *)
Lemma pieces_app d a b : pieces d (a ++ d :: b) = pieces d a ++ pieces d b.
Proof.
  induction a as [|x a IH]; cbn [app pieces]; [now rewrite Z.eqb_refl|]. destruct (x =? d); [now rewrite IH|].
  rewrite IH. pose proof (pieces_ne d a). destruct (pieces d a); [congruence|reflexivity].
Qed.
Lemma split_at_delimiter a b d : a <> [] -> b <> [] -> occurrences d a + occurrences d b < 0x7FFFFFFF -> exists u w,
  split a d = Done u /\ split b d = Done w /\ split (a ++ d :: b) d = Done (u ++ w).
Proof.
  intros Ha Hb Ho. exists (pieces d a), (pieces d b). pose proof (occurrences_pos d a). pose proof (occurrences_pos d b).
  rewrite !split_spec by (assumption || now destruct a). rewrite occurrences_app, occurrences_cons, Z.eqb_refl, pieces_app.
  replace (occurrences d a <? 0x80000000) with true by lia. replace (occurrences d b <? 0x80000000) with true by lia.
  replace (occurrences d a + (1 + occurrences d b) <? 0x80000000) with true by lia. auto.
Qed.
Lemma glue_pieces d e s : glue e (pieces d s) = replaced d e s.
Proof.
  unfold replaced. induction s as [|x s IH]; [reflexivity|]. cbn [pieces map]. pose proof (pieces_ne d s). destruct (x =? d).
  - rewrite glue_cons by assumption. cbn [app]. now rewrite IH.
  - destruct (pieces d s) as [|p v]; [congruence|]. rewrite <- IH. destruct v; reflexivity.
Qed.
Lemma join_other s d e : e <> 0 -> occurrences d s < 0x80000000 -> exists ps,
  split s d = Done ps /\ join ps e = Done (replaced d e s).
Proof.
  intros He Ho. destruct s as [|x s'] eqn:E; [exists []; split; reflexivity|]. rewrite <- E in *. exists (pieces d s).
  rewrite split_spec by (rewrite E; discriminate). replace (occurrences d s <? 0x80000000) with true by lia.
  split; [reflexivity|]. rewrite join_spec by assumption. now rewrite glue_pieces.
Qed.
Lemma glue_app d u w : u <> [] -> w <> [] -> glue d (u ++ w) = glue d u ++ d :: glue d w.
Proof.
  intros Hu Hw. induction u as [|p u IH]; [congruence|]. destruct u as [|q u].
  - cbn [app]. now rewrite glue_cons.
  - rewrite (glue_cons d p (q :: u)) by discriminate. cbn [app] in *. rewrite glue_cons by discriminate.
    rewrite IH by discriminate. now rewrite <- app_assoc.
Qed.
Lemma join_append u w d : d <> 0 -> u <> [] -> w <> [] -> exists a b,
  join u d = Done a /\ join w d = Done b /\ join (u ++ w) d = Done (a ++ d :: b).
Proof. intros Hd Hu Hw. exists (glue d u), (glue d w). rewrite !join_spec by assumption. now rewrite glue_app. Qed.

(* ------------------------------------------------------------------ *)
(* Trimming                                                            *)
(* ------------------------------------------------------------------ *)
Lemma trimmed_around (P : Z -> Prop) f s b r : Forall P f -> Forall P b -> trimmed P s r -> trimmed P (f ++ s ++ b) r.
Proof.
  intros Hf Hb (x & y & -> & Hx & Hy & Hr). exists (f ++ x), (y ++ b). rewrite <- !app_assoc. split; [reflexivity|].
  split; [now apply Forall_app|]. split; [now apply Forall_app|assumption].
Qed.
Lemma trimmed_self (P : Z -> Prop) s : trimmed P s s <-> s = [] \/ ~ P (hd 0 s) /\ ~ P (last s 0).
Proof.
  split.
  - intros (x & y & _ & _ & _ & [->|[(z & t & -> & Hz) (t' & z' & E & Hz')]]); [now left|right].
    split; [exact Hz|]. rewrite E. now rewrite last_last.
  - intros H. exists [], []. rewrite app_nil_r. split; [reflexivity|]. split; [constructor|]. split; [constructor|].
    destruct H as [->|[H1 H2]]; [now left|]. destruct s as [|z t] eqn:E; [now left|right]. split; [now exists z, t|].
    rewrite <- E in *. exists (removelast s), (last s 0). split; [|assumption]. apply app_removelast_last. rewrite E. discriminate.
Qed.
Lemma trimmed_coarser (P Q : Z -> Prop) s r x : (forall c, P c -> Q c) -> trimmed P s r -> trimmed Q r x -> trimmed Q s x.
Proof.
  intros H (f & b & -> & Hf & Hb & _) Hx. apply trimmed_around; [eapply Forall_impl; eassumption|eapply Forall_impl; eassumption|assumption].
Qed.
(* a trimming function that trims P *)
Definition trims (f : list Z -> outcome (list Z)) (P : Z -> Prop) := forall s, exists r, f s = Done r /\ trimmed P s r.
Lemma trims_eq f P s r : trims f P -> trimmed P s r -> f s = Done r.
Proof. intros H Hr. destruct (H s) as (r' & E & Hr'). rewrite E. f_equal. exact (trimmed_unique _ _ _ _ Hr' Hr). Qed.
Lemma trims_around f P : trims f P -> forall a s b, Forall P a -> Forall P b -> f (a ++ s ++ b) = f s.
Proof. intros H a s b Ha Hb. destruct (H s) as (r & -> & Hr). apply (trims_eq f P _ _ H). now apply trimmed_around. Qed.
Lemma trims_self f P : trims f P -> forall s, f s = Done s <-> s = [] \/ ~ P (hd 0 s) /\ ~ P (last s 0).
Proof.
  intros H s. rewrite <- trimmed_self. split; [|now apply (trims_eq f P)]. intros E. destruct (H s) as (r & E' & Hr). congruence.
Qed.
Lemma trims_coarser f g P Q : trims f P -> trims g Q -> (forall c, P c -> Q c) ->
  forall s, exists r x, f s = Done r /\ g s = Done x /\ g r = Done x /\ f x = Done x.
Proof.
  intros Hf Hg HPQ s. destruct (Hf s) as (r & Er & Hr). destruct (Hg r) as (x & Ex & Hx). exists r, x.
  split; [exact Er|]. split; [apply (trims_eq g Q _ _ Hg); exact (trimmed_coarser P Q s r x HPQ Hr Hx)|]. split; [exact Ex|].
  apply (trims_self f P Hf). apply trimmed_again, trimmed_self in Hx. destruct Hx as [->|[H1 H2]]; [now left|right; auto].
Qed.
Lemma trim_set_around l a s b : Forall (fun c => In c l) a -> Forall (fun c => In c l) b -> trim_set (a ++ s ++ b) l = trim_set s l.
Proof. exact (trims_around (fun s => trim_set s l) _ (fun s => trim_set_trims s l) a s b). Qed.
Lemma trim_set_self l s : trim_set s l = Done s <-> s = [] \/ ~ In (hd 0 s) l /\ ~ In (last s 0) l.
Proof. exact (trims_self (fun s => trim_set s l) _ (fun s => trim_set_trims s l) s). Qed.
Lemma trim_around a s b : Forall (fun c => c = 0x20) a -> Forall (fun c => c = 0x20) b -> trim (a ++ s ++ b) = trim s.
Proof. exact (trims_around trim _ trim_trims a s b). Qed.
Lemma trim_self s : trim s = Done s <-> s = [] \/ hd 0 s <> 0x20 /\ last s 0 <> 0x20.
Proof. exact (trims_self trim _ trim_trims s). Qed.
Lemma trim_white_space_around a s b : Forall wide_blank a -> Forall wide_blank b ->
  trimWhiteSpace_32 (a ++ s ++ b) = trimWhiteSpace_32 s /\ trimWhiteSpace_16 (a ++ s ++ b) = trimWhiteSpace_16 s.
Proof. intros Ha Hb. split; [exact (trims_around _ _ trim_32_trims a s b Ha Hb)|exact (trims_around _ _ trim_16_trims a s b Ha Hb)]. Qed.
Lemma trim_white_space_self s :
  (trimWhiteSpace_32 s = Done s <-> s = [] \/ ~ wide_blank (hd 0 s) /\ ~ wide_blank (last s 0)) /\
  (trimWhiteSpace_16 s = Done s <-> s = [] \/ ~ wide_blank (hd 0 s) /\ ~ wide_blank (last s 0)).
Proof. split; [exact (trims_self _ _ trim_32_trims s)|exact (trims_self _ _ trim_16_trims s)]. Qed.
Lemma trim_set_coarser l m : (forall c, In c l -> In c m) ->
  forall s, exists r x, trim_set s l = Done r /\ trim_set s m = Done x /\ trim_set r m = Done x /\ trim_set x l = Done x.
Proof. exact (trims_coarser (fun s => trim_set s l) (fun s => trim_set s m) _ _ (fun s => trim_set_trims s l) (fun s => trim_set_trims s m)). Qed.
Lemma trim_kinds s : exists r x y, trim s = Done r /\ trimAscii7WhiteSpace s = Done x /\ trimWhiteSpace_32 s = Done y /\
  trimAscii7WhiteSpace r = Done x /\ trimWhiteSpace_32 r = Done y /\ trimWhiteSpace_32 x = Done y /\
  trim x = Done x /\ trim y = Done y /\ trimAscii7WhiteSpace y = Done y.
Proof.
  destruct (trims_coarser trim trimAscii7WhiteSpace _ _ trim_trims trim_ascii_trims (fun c H => or_intror (or_intror (or_intror H))) s)
    as (r & x & A1 & A2 & A3 & A4).
  destruct (trims_coarser trimAscii7WhiteSpace trimWhiteSpace_32 _ _ trim_ascii_trims trim_32_trims (fun c H => or_introl H) s)
    as (x' & y & B1 & B2 & B3 & B4). rewrite A2 in B1. injection B1 as <-.
  destruct (trims_coarser trim trimWhiteSpace_32 _ _ trim_trims trim_32_trims (fun c H => or_introl (or_intror (or_intror (or_intror H)))) s)
    as (r' & y' & C1 & C2 & C3 & C4). rewrite A1 in C1. injection C1 as <-. rewrite B2 in C2. injection C2 as <-.
  exists r, x, y. auto 20.
Qed.

(* ------------------------------------------------------------------ *)
(* Chains                                                              *)
(* ------------------------------------------------------------------ *)
Lemma same_calls a b : (forall q, In q a <-> In q b) -> predicateEq (build a) (build b) = true /\ build a = build b.
Proof.
  intros H. assert (E : predicateEq (build a) (build b) = true).
  { apply predicateEq_same. intros k. unfold requires, forbids. rewrite !H. tauto. }
  split; [exact E|now apply predicateEq_eq].
Qed.
Lemma restricts v a b c : unit32 c -> consistent b -> (forall q, In q a -> In q b) ->
  pred32 (tables v) (build b) c = true -> pred32 (tables v) (build a) c = true.
Proof.
  intros Hc Hb H. assert (Ha : consistent a) by (intros k [H1 H2]; apply (Hb k); split; apply H; assumption).
  rewrite !chain_meets by assumption. intros [H1 H2]. split; intros k Hk; [apply H1|apply H2]; apply H, Hk.
Qed.
Lemma restricts_strings v a b s t : consistent b -> (forall q, In q a -> In q b) ->
  (text8 s -> isUtf8_string (tables v) s (code t) (build b) = Done true -> isUtf8_string (tables v) s (code t) (build a) = Done true) /\
  (text32 s -> isUcs4_string (tables v) s (code t) (build b) = Done true -> isUcs4_string (tables v) s (code t) (build a) = Done true).
Proof.
  intros Hb H. split; intros Hs E.
  - apply (answers_true (isUtf8_exact (tables v) s [] t (build a) Hs)).
    destruct (isUtf8_exact (tables v) s [] t (build b) Hs) as (b0 & Eb & Hb0).
    assert (E0 : Done b0 = Done true) by exact (eq_trans (eq_sym Eb) E). injection E0 as ->.
    destruct (proj1 Hb0 eq_refl) as (cs & body & tail & E1 & Ht & HF & Htl). exists cs, body, tail.
    split; [exact E1|]. split; [exact Ht|]. split; [|exact Htl]. pose proof (utf8_text_range _ _ Ht) as He.
    rewrite Forall_forall in *. intros c Hc. destruct (HF c Hc) as [Hr Hp]. split; [exact Hr|].
    apply (restricts v a b c); auto. now apply encodable_unit32, He.
  - apply (answers_true (isUcs4_exact (tables v) s [] t (build a) Hs)).
    destruct (isUcs4_exact (tables v) s [] t (build b) Hs) as (b0 & Eb & Hb0).
    assert (E0 : Done b0 = Done true) by exact (eq_trans (eq_sym Eb) E). injection E0 as ->.
    pose proof (proj1 Hb0 eq_refl) as HF. unfold text32 in Hs. rewrite Forall_forall in *. intros c Hc.
    destruct (HF c Hc) as [Hr Hp]. split; [exact Hr|]. apply (restricts v a b c); auto. specialize (Hs c Hc). unfold unit32. lia.
Qed.
Lemma widens : exists v a q c, unit32 c /\ pred32 (tables v) (build a) c = false /\ pred32 (tables v) (build (a ++ [q])) c = true.
Proof. exists V7, [(false, 3)], (true, 3), 0x85. split; [unfold unit32; lia|]. split; reflexivity. Qed.

(* ------------------------------------------------------------------ *)
(* Classes                                                             *)
(* ------------------------------------------------------------------ *)
Definition apart_ranges (l m : list (Z * Z)) : bool :=
  forallb (fun p => forallb (fun q => (snd p <? fst q) || (snd q <? fst p)) m) l.
Lemma apart_ranges_ok l m c : apart_ranges l m = true -> in_ranges l c -> ~ in_ranges m c.
Proof.
  unfold apart_ranges. rewrite forallb_forall. intros H (a & b & Hin & Hc) (a' & b' & Hin' & Hc').
  specialize (H _ Hin). rewrite forallb_forall in H. specialize (H _ Hin'). cbn [fst snd] in H. lia.
Qed.
Definition covered (l m : list (Z * Z)) : bool :=
  forallb (fun p => existsb (fun q => (fst q <=? fst p) && (snd p <=? snd q)) m) l.
Lemma covered_ok l m c : covered l m = true -> in_ranges l c -> in_ranges m c.
Proof.
  unfold covered. rewrite forallb_forall. intros H (a & b & Hin & Hc). specialize (H _ Hin). rewrite existsb_exists in H.
  destruct H as ([a' b'] & Hin' & H). cbn [fst snd] in H. exists a', b'. split; [assumption|lia].
Qed.
(* code points that are never characters: surrogates, and the 66 noncharacters *)
Definition never : list (Z * Z) :=
  (0xD800, 0xDFFF) :: (0xFDD0, 0xFDEF) :: map (fun i => (Z.of_nat i * 0x10000 + 0xFFFE, Z.of_nat i * 0x10000 + 0xFFFF)) (seq 0 17).
Definition classes_ok (v : version) : bool :=
  apart_ranges (ucd_private v) (ucd_assigned v) && covered (ucd_control v) (ucd_assigned v) &&
  covered (ucd_space v ++ white_space_controls) (ucd_assigned v) && apart_ranges never (ucd_assigned v) &&
  apart_ranges never (ucd_private v) &&
  apart_ranges [(0x110000, 0xFFFFFFFF)] (ucd_assigned v) && apart_ranges [(0x110000, 0xFFFFFFFF)] (ucd_private v).
Lemma all_classes_ok v : classes_ok v = true.
Proof. destruct v; vm_cast_no_check (eq_refl true). Qed.
Lemma never_spec c : 0 <= c <= 0x10FFFF -> surrogate c \/ 0xFDD0 <= c <= 0xFDEF \/ 0xFFFE <= c mod 0x10000 -> in_ranges never c.
Proof.
  intros Hc H. unfold never. rewrite !in_ranges_cons. destruct H as [H|[H|H]]; [left; exact H|right; left; exact H|right; right].
  exists (c / 0x10000 * 0x10000 + 0xFFFE), (c / 0x10000 * 0x10000 + 0xFFFF). split; [|lia].
  apply in_map_iff. exists (Z.to_nat (c / 0x10000)). split; [f_equal; lia|]. apply in_seq. lia.
Qed.
Lemma class_is v k c : unit32 c -> pred32 (tables v) (validIf (class_code k)) c = true <-> member v k c.
Proof.
  intros Hc. change (validIf (class_code k)) with (build [(true, class_code k)]). rewrite chain_implemented by assumption.
  unfold meets_implemented, requires, forbids. cbn [In]. split.
  - intros [H _]. apply H. now left.
  - intros H. split; intros k' [E|[]]; injection E as E.
    + assert (k' = k) as -> by (destruct k, k'; cbn in E; reflexivity || lia). assumption.
    + discriminate.
Qed.
Lemma class_relations v c : unit32 c ->
  let is k := pred32 (tables v) (validIf (class_code k)) c = true in
  ~ (is Private /\ is Assigned) /\ (is Control -> is Assigned) /\ (is Whitespace -> is Assigned) /\
  (never_character c -> forall k, ~ is k).
Proof.
  intros Hc is. subst is. cbn beta. pose proof (all_classes_ok v) as H. unfold classes_ok in H. rewrite !andb_true_iff in H.
  destruct H as [[[[[[H1 H2] H3] H4] H5] H6] H7].
  assert (Hctl : in_ranges (ucd_control v) c -> in_ranges (ucd_assigned v) c) by exact (covered_ok _ _ c H2).
  assert (Hsp : member v Whitespace c -> in_ranges (ucd_assigned v) c).
  { intros Hm. apply (covered_ok _ _ c H3). apply in_ranges_app. exact Hm. }
  split; [rewrite !class_is by assumption; intros [A B]; exact (apart_ranges_ok _ _ c H1 A B)|].
  split; [rewrite !class_is by assumption; exact Hctl|]. split; [rewrite !class_is by assumption; exact Hsp|].
  intros Hn k. rewrite class_is by assumption.
  assert (Hno : ~ in_ranges (ucd_assigned v) c /\ ~ in_ranges (ucd_private v) c).
  { assert (Hd : 0x10FFFF < c \/ in_ranges never c).
    { destruct (Z_lt_le_dec 0x10FFFF c); [now left|right]. apply never_spec; unfold unit32, never_character in *; intuition lia. }
    destruct Hd as [Hd|Hd].
    - assert (Hr : in_ranges [(0x110000, 0xFFFFFFFF)] c) by (rewrite in_ranges_cons; unfold unit32 in Hc; lia).
      split; [exact (apart_ranges_ok _ _ c H6 Hr)|exact (apart_ranges_ok _ _ c H7 Hr)].
    - split; [exact (apart_ranges_ok _ _ c H4 Hd)|exact (apart_ranges_ok _ _ c H5 Hd)]. }
  destruct Hno as [N1 N2]. destruct k; cbn [member]; [exact N1|exact N2|tauto|]. intros Hm. exact (N1 (Hsp Hm)).
Qed.

(* ------------------------------------------------------------------ *)
(* Lengths                                                             *)
(* ------------------------------------------------------------------ *)
Lemma length8_text cs bs : utf8_text cs bs -> Forall upto cs -> unicodeLength8_string bs = Done (wrap32 (len cs)).
Proof. intros H Hu. exact (proj1 (unicodeLength8_exact bs [] (utf8_text_text8 _ _ H)) cs H Hu). Qed.
Lemma length16_text cs us : utf16_text cs us -> unicodeLength16_string us = Done (wrap32 (len cs)).
Proof. intros H. exact (proj1 (unicodeLength16_exact us [] (utf16_text_text16 _ _ H)) cs H). Qed.
Lemma length32_text us : text32 us -> Forall (fun c => ~ surrogate c) us -> unicodeLength32_string us = Done (wrap32 (len us)).
Proof. intros H Hs. exact (proj1 (unicodeLength32_exact us [] H) Hs). Qed.

Lemma wrap32_both m n : wrap32 (m + n) = (wrap32 m + wrap32 n) mod 0x100000000.
Proof. unfold wrap32. apply Z.add_mod. lia. Qed.
Lemma length8_adds cs ds a b : utf8_text cs a -> utf8_text ds b -> Forall upto cs -> Forall upto ds -> adds_up unicodeLength8_string a b.
Proof.
  intros Ha Hb Hu Hw. exists (wrap32 (len cs)), (wrap32 (len ds)). rewrite <- wrap32_both, <- len_app_z.
  split; [now apply length8_text|]. split; [now apply length8_text|]. apply length8_text; [now apply utf8_text_app|now apply Forall_app].
Qed.
Lemma length16_adds cs ds a b : utf16_text cs a -> utf16_text ds b -> adds_up unicodeLength16_string a b.
Proof.
  intros Ha Hb. exists (wrap32 (len cs)), (wrap32 (len ds)). rewrite <- wrap32_both, <- len_app_z.
  split; [now apply length16_text|]. split; [now apply length16_text|]. apply length16_text. now apply utf16_text_app.
Qed.
Lemma length32_adds a b : text32 a -> text32 b -> Forall (fun c => ~ surrogate c) a -> Forall (fun c => ~ surrogate c) b ->
  adds_up unicodeLength32_string a b.
Proof.
  intros Ha Hb Hu Hw. exists (wrap32 (len a)), (wrap32 (len b)). rewrite <- wrap32_both, <- len_app_z.
  split; [now apply length32_text|]. split; [now apply length32_text|].
  apply length32_text; [now apply Forall_app|now apply Forall_app].
Qed.
Lemma lower_length v lang cs bs us : language lang -> utf8_text cs bs -> utf16_text cs us -> exists l8 l16 l32,
  toLower_8 (tables v) bs lang = Done l8 /\ unicodeLength8_string l8 = unicodeLength8_string bs /\
  toLower_16 (tables v) us lang = Done l16 /\ unicodeLength16_string l16 = unicodeLength16_string us /\
  toLower_32 (tables v) cs lang = Done l32 /\ unicodeLength32_string l32 = unicodeLength32_string cs.
Proof.
  intros H H8 H16. pose proof (utf8_text_text8 _ _ H8) as T8. pose proof (utf16_text_text16 _ _ H16) as T16.
  destruct (lower_8 v lang bs cs H T8 (reads_as_text _ _ H8)) as (low & El & E8 & Hn).
  destruct (lower_16 v lang us cs H T16 (utf16_text_reads _ _ H16)) as (low' & El' & E16 & _). rewrite El in El'. injection El' as <-.
  destruct (lower_keeps v lang cs scalar (fun _ H => H) scalar_unit32 H (proj1 H16)) as (l & E & Hs & _). rewrite El in E. injection E as <-.
  destruct (lengths_agree cs bs us H8 H16) as (A1 & A2 & A3).
  destruct (lengths_agree low (flat_map utf8_bytes low) (flat_map utf16_units low)) as (B1 & B2 & B3);
    [apply utf8_text_flat, scalars_encodable8, Hs|split; auto|].
  assert (Elen : len low = len cs) by (unfold len; now rewrite Hn). rewrite Elen in B1, B2, B3.
  exists (flat_map utf8_bytes low), (flat_map utf16_units low), low. rewrite A1, A2, A3, B1, B2, B3. auto 10.
Qed.

(* ------------------------------------------------------------------ *)
(* Code pages                                                          *)
(* ------------------------------------------------------------------ *)
Lemma len_one (x : Z) l : len (x :: l) = 1 + len l.
Proof. unfold len. cbn [length]. lia. Qed.
Definition page_of (n : Z) : list (Z * Z) := if n =? kSrcCP1252 then page1252 else page1250.
Lemma page_fine n : n = kSrcCP1252 \/ n = kSrcCP1250 -> page_ok (page_of n) /\ exact_page (page_of n) n /\
  exists missing, unassigned (page_of n) = missing.
Proof.
  intros [->| ->]; (split; [|split; [|eexists; reflexivity]]).
  - exact page1252_ok.
  - exact toUtf8_cp1252_exact.
  - exact page1250_ok.
  - exact toUtf8_cp1250_exact.
Qed.
Lemma page_bytes n bs cs : n = kSrcCP1252 \/ n = kSrcCP1250 -> stand_for (page_of n) bs cs ->
  len bs <= len (flat_map utf8_bytes cs) <= 3 * len bs.
Proof.
  intros Hn H. destruct (page_fine n Hn) as ((_ & _ & Hh) & _ & _).
  induction H as [|b c bs cs Hc _ IH]; [cbn; lia|]. cbn [flat_map]. rewrite len_app_z, len_one.
  pose proof (stands_code _ _ _ Hh Hc). rewrite bytes_len by (unfold scalar, surrogate; lia). unfold size8.
  replace (c <? 0x10000) with true by lia. destruct (c <? 0x80), (c <? 0x800); lia.
Qed.
Lemma page_decides n bs : n = kSrcCP1252 \/ n = kSrcCP1250 -> text8 bs ->
  (exists cs, stand_for (page_of n) bs cs /\ toUtf8_cp (c_str bs) n = Done (flat_map utf8_bytes cs)) \/
  ((forall cs, ~ stand_for (page_of n) bs cs) /\ toUtf8_cp (c_str bs) n = Done []).
Proof.
  intros Hn H. destruct (page_fine n Hn) as ((H1 & _ & _) & Hex & missing & Hm).
  destruct (all_or_some (page_of n) missing bs Hm H) as [[cs Hcs]|(b & Hb & Hb')].
  - left. exists cs. split; [exact Hcs|]. exact (proj1 (Hex bs [] H) cs Hcs).
  - right. pose proof (missing_none _ _ _ _ H1 Hm Hb Hb') as Hno. split; [exact Hno|]. exact (proj2 (Hex bs [] H) Hno).
Qed.
Lemma cp_sizes n bs r : n = kSrcCP1252 \/ n = kSrcCP1250 -> text8 bs -> toUtf8_cp (c_str bs) n = Done r ->
  r = [] \/ len bs <= len r <= 3 * len bs.
Proof.
  intros Hn H E. destruct (page_decides n bs Hn H) as [(cs & Hcs & E')|[_ E']]; rewrite E in E'; injection E' as ->; [right|now left].
  now apply (page_bytes n).
Qed.
Lemma cp_append n a b ra rb : n = kSrcCP1252 \/ n = kSrcCP1250 -> text8 a -> text8 b ->
  toUtf8_cp (c_str a) n = Done ra -> toUtf8_cp (c_str b) n = Done rb ->
  toUtf8_cp (c_str (a ++ b)) n = Done (match a, ra, b, rb with _ :: _, [], _, _ => [] | _, _, _ :: _, [] => [] | _, _, _, _ => ra ++ rb end).
Proof.
  intros Hn Ha Hb Ea Eb. assert (Hab : text8 (a ++ b)) by now apply Forall_app.
  destruct (page_fine n Hn) as (_ & Hex & _). change (c_str (a ++ b)) with (At ((a ++ b) ++ [0])).
  assert (Hne : forall x cs, x <> [] -> stand_for (page_of n) x cs -> flat_map utf8_bytes cs <> []).
  { intros x cs Hx Hc E. pose proof (page_bytes n x cs Hn Hc) as Hl. rewrite E in Hl. destruct x; [congruence|]. rewrite len_one in Hl. change (len []) with 0 in Hl. pose proof (Zle_0_nat (length x)). unfold len in Hl. lia. }
  destruct (page_decides n a Hn Ha) as [(cs & Hcs & Ea')|[Hna Ea']]; rewrite Ea in Ea'; injection Ea' as ->.
  - destruct (page_decides n b Hn Hb) as [(ds & Hds & Eb')|[Hnb Eb']]; rewrite Eb in Eb'; injection Eb' as ->.
    + rewrite (proj1 (Hex _ [] Hab) (cs ++ ds) (Forall2_app Hcs Hds)), flat_map_app. f_equal.
      pose proof (Hne a cs) as N1. pose proof (Hne b ds) as N2.
      destruct a, b; [now inversion Hcs; inversion Hds| | |].
      * inversion Hcs. subst. cbn [flat_map app]. destruct (flat_map utf8_bytes ds) eqn:E; [|reflexivity]. exfalso. apply N2; [discriminate|assumption|reflexivity].
      * destruct (flat_map utf8_bytes cs) eqn:E; [|reflexivity]. exfalso. apply N1; [discriminate|assumption|reflexivity].
      * destruct (flat_map utf8_bytes cs) eqn:E; [exfalso; apply N1; [discriminate|assumption|reflexivity]|].
        destruct (flat_map utf8_bytes ds) eqn:E'; [exfalso; apply N2; [discriminate|assumption|reflexivity]|reflexivity].
    + rewrite (proj2 (Hex _ [] Hab)).
      * destruct b; [exfalso; apply (Hnb []); constructor|]. destruct a; [now inversion Hcs|]. now destruct (flat_map utf8_bytes cs).
      * intros es Hes. apply Forall2_app_inv_l in Hes. destruct Hes as (e1 & e2 & _ & He2 & _). exact (Hnb e2 He2).
  - rewrite (proj2 (Hex _ [] Hab)).
    + destruct a; [exfalso; apply (Hna []); constructor|]. reflexivity.
    + intros es Hes. apply Forall2_app_inv_l in Hes. destruct Hes as (e1 & e2 & He1 & _ & _). exact (Hna e1 He1).
Qed.
Lemma cp_ascii n bs : n = kSrcCP1252 \/ n = kSrcCP1250 -> Forall ascii bs -> toUtf8_cp (c_str bs) n = Done bs.
Proof.
  intros Hn H. destruct (page_fine n Hn) as (_ & Hex & _).
  assert (T8 : text8 bs) by (eapply Forall_impl; [|exact H]; unfold ascii; lia).
  assert (Hs : stand_for (page_of n) bs bs) by (clear - H; induction H; constructor; [left; unfold ascii in *; split; [lia|reflexivity]|assumption]).
  change (c_str bs) with (At (bs ++ [0])). rewrite (proj1 (Hex _ [] T8) bs Hs). f_equal. clear - H. induction H as [|c bs Hc _ IH]; [reflexivity|]. cbn [flat_map]. rewrite IH.
  unfold utf8_bytes, ascii in *. now replace (c <? 0x80) with true by lia.
Qed.
Lemma cp_is_utf8 T n bs r : n = kSrcCP1252 \/ n = kSrcCP1250 -> text8 bs -> toUtf8_cp (c_str bs) n = Done r -> 
  isUtf8_string T r (code Ucs2) nullPredicate = Done true.
Proof.
  intros Hn H E. destruct (page_fine n Hn) as ((_ & _ & Hh) & _ & _).
  destruct (page_decides n bs Hn H) as [(cs & Hcs & E')|[_ E']]; rewrite E in E'; injection E' as ->; [|reflexivity].
  assert (Hb : Forall bmp cs).
  { clear - Hcs Hh. induction Hcs as [|b c bs cs Hc _ IH]; constructor; [|assumption]. pose proof (stands_code _ _ _ Hh Hc). unfold bmp, surrogate. lia. }
  assert (He : Forall encodable8 cs) by (eapply Forall_impl; [|exact Hb]; unfold bmp, encodable8, surrogate; lia).
  apply (isUtf8_true T cs); [now apply utf8_text_flat|exact Hb|now apply text8_flat].
Qed.
Lemma cp_append_good n a b ra rb : n = kSrcCP1252 \/ n = kSrcCP1250 -> text8 a -> text8 b ->
  toUtf8_cp (c_str a) n = Done ra -> toUtf8_cp (c_str b) n = Done rb -> a = [] \/ ra <> [] -> b = [] \/ rb <> [] ->
  toUtf8_cp (c_str (a ++ b)) n = Done (ra ++ rb).
Proof.
  intros Hn Ha Hb Ea Eb Na Nb. rewrite (cp_append n a b ra rb Hn Ha Hb Ea Eb). f_equal.
  destruct a, ra, b, rb; cbn [app]; try reflexivity; exfalso; destruct Na, Nb; congruence.
Qed.
Lemma cp_append_bad n a b ra rb : n = kSrcCP1252 \/ n = kSrcCP1250 -> text8 a -> text8 b ->
  toUtf8_cp (c_str a) n = Done ra -> toUtf8_cp (c_str b) n = Done rb -> a <> [] /\ ra = [] \/ b <> [] /\ rb = [] ->
  toUtf8_cp (c_str (a ++ b)) n = Done [].
Proof.
  intros Hn Ha Hb Ea Eb N. rewrite (cp_append n a b ra rb Hn Ha Hb Ea Eb). f_equal.
  destruct a, ra, b, rb; cbn [app]; try reflexivity; exfalso; destruct N as [[? ?]|[? ?]]; congruence.
Qed.
