(* The facts about the generated per-version functions, for all versions. *)
From Coq Require Import ZArith List Bool Lia ZifyBool.
From Verif Require Import Machine.
From Verif.Model Require Import Tables Predicate.
From Verif.Spec Require Import Utf Ucd Lowercase Case.
From Verif.Proof Require Import Bits Sweep Classes LowerTools.
From Verif.Gen Require Unicode7 Unicode8 Unicode9 Unicode10 Unicode11 Unicode12 Unicode13 Unicode14 Unicode15 Unicode16.
From Verif.Proof Require Assigned7 Assigned8 Assigned9 Assigned10 Assigned11 Assigned12 Assigned13 Assigned14
  Assigned15 Assigned16 Lower7 Lower8 Lower9 Lower10 Lower11 Lower12 Lower13 Lower14 Lower15 Lower16.
Import ListNotations.
Local Open Scope Z_scope.

(* the record fields, version by version; rewriting with these keeps the checker from unfolding
   the table functions themselves *)
Lemma assigned_of_7 : t_assigned32 (tables V7) = Unicode7.isUnicodeAssigned_32. Proof. reflexivity. Qed.
Lemma assigned_of_8 : t_assigned32 (tables V8) = Unicode8.isUnicodeAssigned_32. Proof. reflexivity. Qed.
Lemma assigned_of_9 : t_assigned32 (tables V9) = Unicode9.isUnicodeAssigned_32. Proof. reflexivity. Qed.
Lemma assigned_of_10 : t_assigned32 (tables V10) = Unicode10.isUnicodeAssigned_32. Proof. reflexivity. Qed.
Lemma assigned_of_11 : t_assigned32 (tables V11) = Unicode11.isUnicodeAssigned_32. Proof. reflexivity. Qed.
Lemma assigned_of_12 : t_assigned32 (tables V12) = Unicode12.isUnicodeAssigned_32. Proof. reflexivity. Qed.
Lemma assigned_of_13 : t_assigned32 (tables V13) = Unicode13.isUnicodeAssigned_32. Proof. reflexivity. Qed.
Lemma assigned_of_14 : t_assigned32 (tables V14) = Unicode14.isUnicodeAssigned_32. Proof. reflexivity. Qed.
Lemma assigned_of_15 : t_assigned32 (tables V15) = Unicode15.isUnicodeAssigned_32. Proof. reflexivity. Qed.
Lemma assigned_of_16 : t_assigned32 (tables V16) = Unicode16.isUnicodeAssigned_32. Proof. reflexivity. Qed.
Lemma lower_of_7 : t_lower (tables V7) = Unicode7.toLower. Proof. reflexivity. Qed.
Lemma lower_of_8 : t_lower (tables V8) = Unicode8.toLower. Proof. reflexivity. Qed.
Lemma lower_of_9 : t_lower (tables V9) = Unicode9.toLower. Proof. reflexivity. Qed.
Lemma lower_of_10 : t_lower (tables V10) = Unicode10.toLower. Proof. reflexivity. Qed.
Lemma lower_of_11 : t_lower (tables V11) = Unicode11.toLower. Proof. reflexivity. Qed.
Lemma lower_of_12 : t_lower (tables V12) = Unicode12.toLower. Proof. reflexivity. Qed.
Lemma lower_of_13 : t_lower (tables V13) = Unicode13.toLower. Proof. reflexivity. Qed.
Lemma lower_of_14 : t_lower (tables V14) = Unicode14.toLower. Proof. reflexivity. Qed.
Lemma lower_of_15 : t_lower (tables V15) = Unicode15.toLower. Proof. reflexivity. Qed.
Lemma lower_of_16 : t_lower (tables V16) = Unicode16.toLower. Proof. reflexivity. Qed.

Lemma assigned_exact v c : unit32 c -> t_assigned32 (tables v) c = true <-> in_ranges (ucd_assigned v) c.
Proof.
  unfold unit32. destruct v;
    [rewrite assigned_of_7; exact (Assigned7.assigned_exact c)
    |rewrite assigned_of_8; exact (Assigned8.assigned_exact c)
    |rewrite assigned_of_9; exact (Assigned9.assigned_exact c)
    |rewrite assigned_of_10; exact (Assigned10.assigned_exact c)
    |rewrite assigned_of_11; exact (Assigned11.assigned_exact c)
    |rewrite assigned_of_12; exact (Assigned12.assigned_exact c)
    |rewrite assigned_of_13; exact (Assigned13.assigned_exact c)
    |rewrite assigned_of_14; exact (Assigned14.assigned_exact c)
    |rewrite assigned_of_15; exact (Assigned15.assigned_exact c)
    |rewrite assigned_of_16; exact (Assigned16.assigned_exact c)].
Qed.
Lemma assigned_8 v c : byte c -> t_assigned8 (tables v) c = t_assigned32 (tables v) c.
Proof.
  unfold byte. intros Hc. replace (t_assigned8 (tables v) c) with true by now destruct v.
  symmetry. rewrite assigned_exact by (unfold unit32; lia).
  exists 0, 0x377. split; [destruct v; left; reflexivity|lia].
Qed.

Lemma lower_follows v :
  follows (t_lower (tables v)) (amended (ucd_lower v) (lower_missing v) (lower_extra v)) 0 0x100000000.
Proof.
  destruct v;
    [rewrite lower_of_7; exact Lower7.lower_exact
    |rewrite lower_of_8; exact Lower8.lower_exact
    |rewrite lower_of_9; exact Lower9.lower_exact
    |rewrite lower_of_10; exact Lower10.lower_exact
    |rewrite lower_of_11; exact Lower11.lower_exact
    |rewrite lower_of_12; exact Lower12.lower_exact
    |rewrite lower_of_13; exact Lower13.lower_exact
    |rewrite lower_of_14; exact Lower14.lower_exact
    |rewrite lower_of_15; exact Lower15.lower_exact
    |rewrite lower_of_16; exact Lower16.lower_exact].
Qed.
Lemma lower_twice v c : unit32 c -> t_lower (tables v) (t_lower (tables v) c) = t_lower (tables v) c.
Proof.
  unfold unit32. destruct v;
    [rewrite lower_of_7; apply Lower7.lower_idempotent
    |rewrite lower_of_8; apply Lower8.lower_idempotent
    |rewrite lower_of_9; apply Lower9.lower_idempotent
    |rewrite lower_of_10; apply Lower10.lower_idempotent
    |rewrite lower_of_11; apply Lower11.lower_idempotent
    |rewrite lower_of_12; apply Lower12.lower_idempotent
    |rewrite lower_of_13; apply Lower13.lower_idempotent
    |rewrite lower_of_14; apply Lower14.lower_idempotent
    |rewrite lower_of_15; apply Lower15.lower_idempotent
    |rewrite lower_of_16; apply Lower16.lower_idempotent].
Qed.
Lemma lower_value v c : unit32 c -> t_lower (tables v) c = c \/ scalar (t_lower (tables v) c).
Proof.
  unfold unit32. intros Hc.
  assert (H : t_lower (tables v) c = c \/ scalar (t_lower (tables v) c) /\ 0 < t_lower (tables v) c); [|tauto].
  revert Hc. destruct v;
    [rewrite lower_of_7; apply Lower7.lower_good
    |rewrite lower_of_8; apply Lower8.lower_good
    |rewrite lower_of_9; apply Lower9.lower_good
    |rewrite lower_of_10; apply Lower10.lower_good
    |rewrite lower_of_11; apply Lower11.lower_good
    |rewrite lower_of_12; apply Lower12.lower_good
    |rewrite lower_of_13; apply Lower13.lower_good
    |rewrite lower_of_14; apply Lower14.lower_good
    |rewrite lower_of_15; apply Lower15.lower_good
    |rewrite lower_of_16; apply Lower16.lower_good].
Qed.

Lemma turkic_def v c : t_turkic (tables v) c = if c =? 0x49 then 0x131 else t_lower (tables v) c.
Proof.
  assert (E : t_turkic (tables v) c = if c =? 0x130 then 0x69 else if c =? 0x49 then 0x131 else t_lower (tables v) c)
    by now destruct v.
  rewrite E. destruct (Z.eqb_spec c 0x130) as [H|_]; [rewrite H; now destruct v|reflexivity].
Qed.
Lemma lower_131 v : t_lower (tables v) 0x131 = 0x131.
Proof. now destruct v. Qed.
Lemma turkic_twice v c : unit32 c -> t_turkic (tables v) (t_turkic (tables v) c) = t_turkic (tables v) c.
Proof.
  intros Hc. rewrite (turkic_def v c). destruct (Z.eqb_spec c 0x49) as [->|Hn].
  { rewrite turkic_def. apply lower_131. }
  rewrite turkic_def. destruct (Z.eqb_spec (t_lower (tables v) c) 0x49) as [E|]; [exfalso|now apply lower_twice].
  pose proof (lower_twice v c Hc) as H. rewrite E in H. destruct v; discriminate H.
Qed.
Lemma turkic_value v c : unit32 c -> t_turkic (tables v) c = c \/ scalar (t_turkic (tables v) c).
Proof.
  intros Hc. rewrite turkic_def. destruct (Z.eqb_spec c 0x49); [right; unfold scalar, surrogate; lia|now apply lower_value].
Qed.

(* above the last mapped code point *)
Definition below (bound : Z) (l : list (Z * Z)) : bool := forallb (fun p => fst p <? bound) l.
Lemma lower_above v c : 0x1E922 <= c < 0x100000000 -> t_lower (tables v) c = c.
Proof.
  intros Hc. assert (Hc' : 0 <= c < 0x100000000) by lia.
  destruct (lower_follows v c Hc') as [Hin|[_ E]]; [exfalso|assumption].
  assert (Hb : below 0x1E922 (amended (ucd_lower v) (lower_missing v) (lower_extra v)) = true)
    by (destruct v; vm_compute; reflexivity).
  unfold below in Hb. rewrite forallb_forall in Hb. specialize (Hb _ Hin). cbn [fst] in Hb. lia.
Qed.

(* the departures are exactly the code points of the two lists *)
Definition disjoint_keys (l e : list (Z * Z)) : bool := forallb (fun p => negb (existsb (fun q => fst q =? fst p) l)) e.
Definition moving (l : list (Z * Z)) : bool := forallb (fun p => negb (fst p =? snd p)) l.
Definition all_listed (m l : list (Z * Z)) : bool :=
  forallb (fun r => all_between (fun c => existsb (fun q => fst q =? c) l) (fst r) (snd r + 1)) m.
Lemma departures v c : unit32 c -> lowers_to v c (t_lower (tables v) c) <-> ~ departs v c.
Proof.
  unfold unit32. intros Hc.
  assert (K1 : disjoint_keys (ucd_lower v) (lower_extra v) = true) by (destruct v; vm_compute; reflexivity).
  assert (K2 : disjoint_keys (lower_extra v) (ucd_lower v) = true) by (destruct v; vm_compute; reflexivity).
  assert (K3 : moving (ucd_lower v) = true) by (destruct v; vm_compute; reflexivity).
  assert (K4 : moving (lower_extra v) = true) by (destruct v; vm_compute; reflexivity).
  assert (K5 : all_listed (lower_missing v) (ucd_lower v) = true) by (destruct v; vm_compute; reflexivity).
  unfold disjoint_keys, moving, all_listed in *. rewrite forallb_forall in K1, K2, K3, K4, K5.
  assert (L1 : forall d d', In (c, d) (lower_extra v) -> ~ In (c, d') (ucd_lower v)).
  { intros d d' H1 H2. specialize (K1 _ H1). cbn [fst] in K1. rewrite negb_true_iff, <- not_true_iff_false in K1.
    apply K1. rewrite existsb_exists. exists (c, d'). split; [assumption|]. cbn [fst]. lia. }
  assert (L2 : in_ranges (lower_missing v) c -> exists d, In (c, d) (ucd_lower v)).
  { intros (a & b & Hin & Hr). specialize (K5 _ Hin). cbn [fst snd] in K5. apply all_between_ok in K5.
    destruct K5 as [_ K5]. specialize (K5 c ltac:(lia)). rewrite existsb_exists in K5. destruct K5 as ([c' d] & Hd & E).
    cbn [fst] in E. exists d. replace c with c' by lia. assumption. }
  unfold departs, lowers_to. split.
  - intros Hl [Hm|[d Hd]].
    + destruct (L2 Hm) as [d Hd]. destruct Hl as [Hl|[Hn _]]; [|exact (Hn _ Hd)].
      destruct (lower_follows v c Hc) as [Hf|[_ E]].
      * rewrite amended_spec in Hf. destruct Hf as [[_ Hf]|Hf]; [tauto|]. exact (L1 _ _ Hf Hd).
      * rewrite E in Hl. specialize (K3 _ Hl). cbn [fst snd] in K3. lia.
    + destruct Hl as [Hl|[Hn E]]; [exact (L1 _ _ Hd Hl)|].
      destruct (lower_follows v c Hc) as [Hf|[Hf _]].
      * rewrite amended_spec in Hf. destruct Hf as [[Hf _]|Hf]; [exact (L1 _ _ Hd Hf)|]. rewrite E in Hf.
        specialize (K4 _ Hf). cbn [fst snd] in K4. lia.
      * apply (Hf d). rewrite amended_spec. now right.
  - intros Hn. destruct (lower_follows v c Hc) as [Hf|[Hf E]].
    + rewrite amended_spec in Hf. destruct Hf as [[Hf _]|Hf]; [now left|]. exfalso. apply Hn. right. eauto.
    + right. split; [|assumption]. intros d Hd. apply (Hf d). rewrite amended_spec. left. split; [assumption|tauto].
Qed.
