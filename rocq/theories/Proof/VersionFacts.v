(* From one Unicode version to a later one: nothing assigned goes away, no mapping changes. *)
From Coq Require Import ZArith List Bool Lia ZifyBool.
From Verif Require Import Machine.
From Verif.Model Require Import Internal Tables Predicate Str Lower.
From Verif.Spec Require Import Utf Target Result Ucd Lowercase Case Chain Version.
From Verif.Proof Require Import Bits IsFuncs Consequences Classes LowerTools TablesFacts CaseFacts LowerPairs LowerMore Predicates.
Import ListNotations.
Local Open Scope Z_scope.

(* every range of l lies inside a range of m, both ascending; one pass over both *)
Fixpoint within (l : list (Z * Z)) : list (Z * Z) -> bool :=
  match l with
  | [] => fun _ => true
  | (a, b) :: l' => fix seek (m : list (Z * Z)) : bool :=
      match m with
      | [] => false
      | (x, y) :: m' => if b <=? y then (x <=? a) && within l' m else seek m'
      end
  end.
Lemma within_ok l : forall m c, within l m = true -> in_ranges l c -> in_ranges m c.
Proof.
  induction l as [|[a b] l IH]; intros m c H; [now rewrite in_ranges_nil|]. rewrite in_ranges_cons.
  induction m as [|[x y] m IHm]; [discriminate H|]. cbn [within] in H. rewrite in_ranges_cons.
  destruct (Z.leb_spec b y).
  - apply andb_true_iff in H. destruct H as [Hx H]. intros [Hc|Hc]; [left; lia|].
    specialize (IH _ c H Hc). now rewrite in_ranges_cons in IH.
  - intros Hc. right. apply IHm; assumption.
Qed.
(* every pair of l is a pair of m, both ascending by argument *)
Fixpoint among (l : list (Z * Z)) : list (Z * Z) -> bool :=
  match l with
  | [] => fun _ => true
  | (a, b) :: l' => fix seek (m : list (Z * Z)) : bool :=
      match m with
      | [] => false
      | (x, y) :: m' => if x =? a then (y =? b) && among l' m' else seek m'
      end
  end.
Lemma among_ok l : forall m p, among l m = true -> In p l -> In p m.
Proof.
  induction l as [|[a b] l IH]; intros m p H; [intros []|].
  induction m as [|[x y] m IHm]; [discriminate H|]. cbn [among] in H. cbn [In].
  destruct (Z.eqb_spec x a) as [->|].
  - apply andb_true_iff in H. destruct H as [Hx H]. apply Z.eqb_eq in Hx. subst y. intros [<-|Hc]; [now left|right]. now apply IH.
  - intros Hc. right. apply IHm; assumption.
Qed.

Definition next (v : version) : version :=
  match v with V7 => V8 | V8 => V9 | V9 => V10 | V10 => V11 | V11 => V12 | V12 => V13 | V13 => V14 | V14 => V15 | V15 => V16 | V16 => V16 end.
Lemma older_ind (R : version -> version -> Prop) : (forall v, R v v) -> (forall v w, R v w -> R v (next w)) ->
  forall v w, number v <= number w -> R v w.
Proof.
  intros H0 H1 v w Hle.
  assert (Hgo : forall n w, number w = number v + Z.of_nat n -> R v w).
  { clear w Hle. induction n as [|n IH]; intros w E.
    - assert (w = v) as -> by (destruct v, w; cbn [number] in E; reflexivity || lia). apply H0.
    - assert (Hw : exists u, w = next u /\ number u = number v + Z.of_nat n).
      { destruct w; cbn [number] in E; [destruct v; cbn [number] in E; lia|..];
          [exists V7|exists V8|exists V9|exists V10|exists V11|exists V12|exists V13|exists V14|exists V15];
          (split; [reflexivity|cbn [number]; lia]). }
      destruct Hw as (u & -> & Hu). apply H1, IH, Hu. }
  apply (Hgo (Z.to_nat (number w - number v))). lia.
Qed.

Lemma assigned_next v : within (ucd_assigned v) (ucd_assigned (next v)) = true.
Proof. destruct v; vm_cast_no_check (eq_refl true). Qed.
Lemma pairs_next v : among (pairs v) (pairs (next v)) = true.
Proof. destruct v; vm_cast_no_check (eq_refl true). Qed.

Lemma assigned_stays v w c : number v <= number w -> in_ranges (ucd_assigned v) c -> in_ranges (ucd_assigned w) c.
Proof.
  intros H. revert v w H. apply (older_ind (fun v w => in_ranges (ucd_assigned v) c -> in_ranges (ucd_assigned w) c)); [auto|].
  intros v w IH Hv. exact (within_ok _ _ c (assigned_next w) (IH Hv)).
Qed.
Lemma pairs_stay v w p : number v <= number w -> In p (pairs v) -> In p (pairs w).
Proof.
  intros H. revert v w H. apply (older_ind (fun v w => In p (pairs v) -> In p (pairs w))); [auto|].
  intros v w IH Hv. exact (among_ok _ _ p (pairs_next w) (IH Hv)).
Qed.
Lemma member_same v w k c : k <> Assigned -> member v k c <-> member w k c.
Proof. intros H. destruct k; [congruence|destruct v, w; reflexivity..]. Qed.
Lemma member_stays v w k c : number v <= number w -> member v k c -> member w k c.
Proof.
  intros H. destruct k; [apply assigned_stays; assumption|..]; apply member_same; discriminate.
Qed.

(* predicates *)
Lemma chain_stays v w chain c : number v <= number w -> unit32 c -> ~ forbids chain Assigned \/ requires chain Assigned ->
  pred32 (tables v) (build chain) c = true -> pred32 (tables w) (build chain) c = true.
Proof.
  intros H Hc Hf. rewrite !chain_implemented by assumption. intros [H1 H2]. split.
  - intros k Hk. exact (member_stays v w k c H (H1 k Hk)).
  - intros k Hk. destruct (H2 k Hk) as [Hr|Hn]; [now left|].
    assert (Hd : requires chain k \/ k <> Assigned).
    { destruct k; [destruct Hf; [tauto|now left]|right; discriminate..]. }
    destruct Hd as [Hd|Hd]; [now left|right]. now rewrite (member_same w v k c Hd).
Qed.
Lemma chain_same v w chain c : unit32 c -> ~ forbids chain Assigned -> ~ requires chain Assigned ->
  pred32 (tables v) (build chain) c = pred32 (tables w) (build chain) c.
Proof.
  intros Hc Hf Hr. apply eq_true_iff_eq. rewrite !chain_implemented by assumption.
  assert (Hgo : forall v w, meets_implemented v chain c -> meets_implemented w chain c).
  { clear v w. intros v w [H1 H2]. split.
    - intros k Hk. apply (member_same v w k c); [intros ->; tauto|]. now apply H1.
    - intros k Hk. destruct (H2 k Hk) as [?|Hn]; [now left|right]. rewrite (member_same w v k c); [assumption|intros ->; tauto]. }
  split; apply Hgo.
Qed.
Lemma isUcs4_stays v w s t chain : number v <= number w -> text32 s -> ~ forbids chain Assigned \/ requires chain Assigned ->
  isUcs4_string (tables v) s (code t) (build chain) = Done true -> isUcs4_string (tables w) s (code t) (build chain) = Done true.
Proof.
  intros H Hs Hf E. apply (answers_true (isUcs4_exact (tables w) s [] t (build chain) Hs)).
  destruct (isUcs4_exact (tables v) s [] t (build chain) Hs) as (b & Eb & Hb). assert (E0 : Done b = Done true) by exact (eq_trans (eq_sym Eb) E).
  injection E0 as ->. pose proof (proj1 Hb eq_refl) as HF. unfold text32 in Hs. rewrite Forall_forall in *. intros c Hc.
  destruct (HF c Hc) as [Hr Hp]. split; [exact Hr|]. apply (chain_stays v w chain c H); [|assumption..].
  specialize (Hs c Hc). unfold unit32. lia.
Qed.
Lemma isUtf8_stays v w s t chain : number v <= number w -> text8 s -> ~ forbids chain Assigned \/ requires chain Assigned ->
  isUtf8_string (tables v) s (code t) (build chain) = Done true -> isUtf8_string (tables w) s (code t) (build chain) = Done true.
Proof.
  intros H Hs Hf E. apply (answers_true (isUtf8_exact (tables w) s [] t (build chain) Hs)).
  destruct (isUtf8_exact (tables v) s [] t (build chain) Hs) as (b & Eb & Hb). assert (E0 : Done b = Done true) by exact (eq_trans (eq_sym Eb) E).
  injection E0 as ->. destruct (proj1 Hb eq_refl) as (cs & body & tail & E1 & Ht & HF & Htl). exists cs, body, tail.
  split; [exact E1|]. split; [exact Ht|]. split; [|exact Htl]. pose proof (TextFacts.utf8_text_range _ _ Ht) as He.
  rewrite Forall_forall in *. intros c Hc.
  destruct (HF c Hc) as [Hr Hp]. split; [exact Hr|]. apply (chain_stays v w chain c H); [|assumption..].
  now apply encodable_unit32, He.
Qed.

(* mappings *)
Fixpoint ascending (from : Z) (l : list (Z * Z)) : bool :=
  match l with [] => true | (a, _) :: l' => (from <? a) && ascending a l' end.
Lemma ascending_above l : forall from p, ascending from l = true -> In p l -> from < fst p.
Proof.
  induction l as [|[a b] l IH]; intros from p H []; cbn [ascending] in H; apply andb_true_iff in H; destruct H as [H1 H2].
  - subst p. cbn [fst]. lia.
  - specialize (IH a p H2 H0). lia.
Qed.
Lemma ascending_unique l : forall from c d d', ascending from l = true -> In (c, d) l -> In (c, d') l -> d = d'.
Proof.
  induction l as [|[a b] l IH]; intros from c d d' H; [intros []|]. cbn [ascending] in H. apply andb_true_iff in H. destruct H as [H1 H2].
  intros [E|H3] [E'|H4]; [congruence|..].
  - injection E as -> ->. apply (ascending_above _ _ _ H2) in H4. cbn [fst] in H4. lia.
  - injection E' as -> ->. apply (ascending_above _ _ _ H2) in H3. cbn [fst] in H3. lia.
  - exact (IH a c d d' H2 H3 H4).
Qed.
Lemma ascending_pairs v : ascending 0 (pairs v) = true.
Proof. destruct v; vm_cast_no_check (eq_refl true). Qed.
Lemma pairs_mapping v c d : unit32 c -> In (c, d) (pairs v) -> t_lower (tables v) c = d.
Proof.
  intros Hc Hin. destruct (lower_follows v c Hc) as [Hf|[Hf _]]; [|now apply Hf in Hin].
  exact (ascending_unique _ _ _ _ _ (ascending_pairs v) Hf Hin).
Qed.
Lemma lower_stays v w c : number v <= number w -> unit32 c -> t_lower (tables v) c <> c -> t_lower (tables w) c = t_lower (tables v) c.
Proof.
  intros H Hc Hne. destruct (lower_follows v c Hc) as [Hf|[_ E]]; [|congruence].
  apply pairs_mapping; [assumption|]. exact (pairs_stay v w _ H Hf).
Qed.
Lemma mapping_stays v w b c : number v <= number w -> unit32 c -> mapping (tables v) b c <> c -> mapping (tables w) b c = mapping (tables v) b c.
Proof.
  intros H Hc. unfold mapping. destruct b; [|now apply lower_stays]. rewrite !turkic_def. destruct (c =? 0x49); [reflexivity|].
  now apply lower_stays.
Qed.
Lemma mapping_after v w b c : number v <= number w -> unit32 c ->
  mapping (tables w) b (mapping (tables v) b c) = mapping (tables w) b c /\
  mapping (tables v) b (mapping (tables w) b c) = mapping (tables w) b c.
Proof.
  intros H Hc. split.
  - destruct (Z.eq_dec (mapping (tables v) b c) c) as [E|E]; [now rewrite E|].
    rewrite <- (mapping_stays v w b c H Hc E). now apply mapping_twice.
  - destruct (Z.eq_dec (mapping (tables v) b (mapping (tables w) b c)) (mapping (tables w) b c)) as [E|E]; [exact E|].
    pose proof (mapping_stays v w b _ H (mapping_unit w b c Hc) E) as E'. rewrite mapping_twice in E' by assumption. congruence.
Qed.
Lemma lower_versions v w lang s : number v <= number w -> language lang -> Forall unit32 s -> exists old new,
  toLower_32 (tables v) s lang = Done old /\ toLower_32 (tables w) s lang = Done new /\
  Forall2 (fun c pq => fst pq = c \/ snd pq = fst pq) s (combine old new) /\
  toLower_32 (tables w) old lang = Done new /\ toLower_32 (tables v) new lang = Done new.
Proof.
  intros H Hl Hs. destruct (language_spec lang Hl) as (b & E & _).
  exists (map (mapping (tables v) b) s), (map (mapping (tables w) b) s). rewrite !(toLower_32_map _ _ _ _ E), !map_map.
  split; [reflexivity|]. split; [reflexivity|]. split.
  - induction Hs as [|c s Hc _ IH]; cbn [map combine]; constructor; [|exact IH]. cbn [fst snd].
    destruct (Z.eq_dec (mapping (tables v) b c) c) as [Ec|Ec]; [now left|right]. now apply mapping_stays.
  - rewrite Forall_forall in Hs. split; f_equal; apply map_ext_in; intros c Hc; apply mapping_after; auto.
Qed.
