(* split and join *)
From Coq Require Import ZArith List Bool Lia ZifyBool Arith.
From Verif Require Import Machine.
From Verif.Model Require Import CodePage SplitJoin.
From Verif.Spec Require Import Text.
From Verif.Proof Require Import Bits.
Import ListNotations.
Local Open Scope Z_scope.

(* ---------------------------------------------------------------- the pieces *)

Fixpoint pieces (d : Z) (s : list Z) : list (list Z) :=
  match s with
  | [] => [[]]
  | x :: r => if x =? d then [] :: pieces d r else match pieces d r with p :: v => (x :: p) :: v | [] => [[x]] end
  end.
Lemma pieces_ne d s : pieces d s <> [].
Proof. destruct s as [|x r]; cbn; [discriminate|]. destruct (x =? d); [discriminate|]. destruct (pieces d r); discriminate. Qed.
Lemma pieces_plain d s : ~ In d s -> pieces d s = [s].
Proof.
  induction s as [|x r IH]; intros H; [reflexivity|]. cbn [pieces]. cbn [In] in H.
  destruct (Z.eqb_spec x d); [tauto|]. rewrite IH by tauto. reflexivity.
Qed.
Lemma pieces_cut d a b : ~ In d a -> pieces d (a ++ d :: b) = a :: pieces d b.
Proof.
  induction a as [|x r IH]; intros H; cbn [pieces app].
  - now rewrite Z.eqb_refl.
  - cbn [In] in H. destruct (Z.eqb_spec x d); [tauto|]. now rewrite IH by tauto.
Qed.
Lemma glue_cons d p v : v <> [] -> glue d (p :: v) = p ++ d :: glue d v.
Proof. destruct v; [congruence|reflexivity]. Qed.
Lemma occurrences_cons d x s : occurrences d (x :: s) = (if x =? d then 1 else 0) + occurrences d s.
Proof. unfold occurrences. cbn [count_occ]. destruct (Z.eq_dec x d), (Z.eqb_spec x d); try congruence; lia. Qed.
Lemma occurrences_none d s : ~ In d s -> occurrences d s = 0.
Proof. intros H. unfold occurrences. now rewrite (proj1 (count_occ_not_In Z.eq_dec s d) H). Qed.
Lemma occurrences_app d a b : occurrences d (a ++ b) = occurrences d a + occurrences d b.
Proof. unfold occurrences. rewrite count_occ_app. lia. Qed.
Lemma occurrences_pos d s : 0 <= occurrences d s. Proof. unfold occurrences. lia. Qed.

Lemma pieces_cut_at d s : cut_at d s (pieces d s).
Proof.
  split; [apply pieces_ne|]. induction s as [|x r [H1 H2]]; cbn [pieces]; [split; [repeat constructor; tauto|reflexivity]|].
  pose proof (pieces_ne d r) as Hne. destruct (Z.eqb_spec x d) as [->|Hx].
  - split; [constructor; [tauto|assumption]|]. rewrite glue_cons by assumption. cbn. now rewrite H2.
  - destruct (pieces d r) as [|p v]; [congruence|]. inversion H1; subst. split.
    + constructor; [|assumption]. intros [E|E]; [congruence|contradiction].
    + destruct v; reflexivity.
Qed.
Lemma pieces_count d s : Z.of_nat (length (pieces d s)) = 1 + occurrences d s.
Proof.
  induction s as [|x r IH]; [reflexivity|]. cbn [pieces]. rewrite occurrences_cons.
  pose proof (pieces_ne d r) as Hne. destruct (x =? d); [cbn [length]; lia|]. destruct (pieces d r); [congruence|]. cbn [length] in *. lia.
Qed.
Lemma pieces_unique d s v : cut_at d s v -> pieces d s = v.
Proof.
  intros (Hne & HF & <-). induction v as [|p v IH]; [congruence|]. inversion HF as [|? ? Hp HF']; subst.
  destruct v as [|q v]; [now apply pieces_plain|]. rewrite glue_cons by discriminate. rewrite pieces_cut by assumption.
  f_equal. apply IH; [discriminate|assumption].
Qed.

(* ---------------------------------------------------------------- find *)

Lemma find_spec s c : match find s c with
  | Some n => exists a b, s = a ++ c :: b /\ length a = n /\ ~ In c a
  | None => ~ In c s end.
Proof.
  induction s as [|x r IH]; cbn [find]; [tauto|]. destruct (Z.eqb_spec x c) as [->|Hx].
  - exists [], r. repeat split. cbn. tauto.
  - destruct (find r c) as [n|].
    + destruct IH as (a & b & -> & <- & Ha). exists (x :: a), b. repeat split. cbn [In]. intros [E|E]; [congruence|contradiction].
    + cbn [In]. intros [E|E]; [congruence|contradiction].
Qed.
Lemma find_from_spec pre d s : find_from (pre ++ d :: s) d (length pre + 1) =
  match find s d with Some n => Some (length pre + 1 + n)%nat | None => None end.
Proof.
  unfold find_from. replace (skipn (length pre + 1) (pre ++ d :: s)) with s; [reflexivity|].
  rewrite skipn_app, skipn_all2 by lia. replace (length pre + 1 - length pre)%nat with 1%nat by lia. reflexivity.
Qed.

(* positions of d in s, counted from k *)
Fixpoint positions (d : Z) (k : nat) (s : list Z) : list nat :=
  match s with [] => [] | x :: r => if x =? d then k :: positions d (S k) r else positions d (S k) r end.
Lemma positions_none d s k : ~ In d s -> positions d k s = [].
Proof.
  revert k; induction s as [|x r IH]; intros k H; [reflexivity|]. cbn in *. destruct (Z.eqb_spec x d); [tauto|]. apply IH. tauto.
Qed.
Lemma positions_cut d a b k : ~ In d a -> positions d k (a ++ d :: b) = (k + length a)%nat :: positions d (k + length a + 1) b.
Proof.
  revert k; induction a as [|x r IH]; intros k H; cbn [app positions length].
  - rewrite Z.eqb_refl, Nat.add_0_r. f_equal. f_equal. lia.
  - cbn [In] in H. destruct (Z.eqb_spec x d); [tauto|]. rewrite IH by tauto. f_equal; [lia|]. f_equal. lia.
Qed.
Lemma positions_count d s k : Z.of_nat (length (positions d k s)) = occurrences d s.
Proof.
  revert k; induction s as [|x r IH]; intros k; [reflexivity|]. rewrite occurrences_cons. cbn [positions].
  destruct (x =? d); cbn [length]; specialize (IH (S k)); lia.
Qed.

Lemma split_breaks_spec d n : forall rest pre fuel acc, (length rest <= n)%nat -> (n < fuel)%nat ->
  split_breaks fuel (pre ++ d :: rest) d (length pre) acc = Done (acc ++ length pre :: positions d (length pre + 1) rest).
Proof.
  induction n as [|n IH]; intros rest pre fuel acc Hn Hf; (destruct fuel as [|fuel]; [lia|]); cbn [split_breaks]; rewrite find_from_spec;
    pose proof (find_spec rest d) as Hs; destruct (find rest d) as [m|].
  - destruct Hs as (a & b & -> & _). rewrite app_length in Hn. cbn in Hn. lia.
  - now rewrite positions_none.
  - destruct Hs as (a & b & -> & <- & Ha).
    replace (pre ++ d :: a ++ d :: b) with ((pre ++ d :: a) ++ d :: b) by (rewrite <- app_assoc; reflexivity).
    replace (length pre + 1 + length a)%nat with (length (pre ++ d :: a)) by (rewrite app_length; cbn [length]; lia).
    rewrite IH; [|rewrite app_length in Hn; cbn in Hn; lia|lia]. rewrite positions_cut by assumption.
    rewrite <- app_assoc. cbn [app]. do 3 f_equal. rewrite app_length. cbn [length]. f_equal; [lia|]. f_equal. lia.
  - now rewrite positions_none.
Qed.

Lemma vector_set_at (done todo : list (list Z)) y x : vector_set (done ++ y :: todo) (length done) x = Done (done ++ x :: todo).
Proof. induction done as [|z done IH]; [reflexivity|]. cbn [app vector_set length]. now rewrite IH. Qed.

Lemma substr_to_end_at pre d (rest : list Z) : substr_to_end (pre ++ d :: rest) (length pre + 1) = Done rest.
Proof.
  unfold substr_to_end. rewrite app_length. cbn [length].
  replace (length pre + S (length rest) <? length pre + 1)%nat with false by (symmetry; apply Nat.ltb_ge; lia).
  rewrite skipn_app, skipn_all2 by lia. replace (length pre + 1 - length pre)%nat with 1%nat by lia. reflexivity.
Qed.
Lemma substr_at pre d (a b : list Z) : substr (pre ++ d :: a ++ b) (length pre + 1) (length a) = Done a.
Proof.
  unfold substr. rewrite !app_length. cbn [length]. rewrite app_length.
  replace (length pre + S (length a + length b) <? length pre + 1)%nat with false by (symmetry; apply Nat.ltb_ge; lia).
  rewrite skipn_app, skipn_all2 by lia. replace (length pre + 1 - length pre)%nat with 1%nat by lia. cbn [skipn app].
  rewrite firstn_app, Nat.sub_diag, firstn_all. cbn [firstn]. now rewrite app_nil_r.
Qed.

Lemma split_fill_spec d n : forall rest pre i done, (length rest <= n)%nat -> 0 <= i -> Z.to_nat i = length done ->
  split_fill (pre ++ d :: rest) (length pre :: positions d (length pre + 1) rest) i
    (done ++ repeat [] (S (length (positions d (length pre + 1) rest)))) =
  if i + occurrences d rest <=? 0x7fffffff then Done (done ++ pieces d rest) else if i <=? 0x7fffffff then Undefined else
    if occurrences d rest =? 0 then Done (done ++ pieces d rest) else Undefined.
Proof.
  induction n as [|n IH]; intros rest pre i done Hn Hi Hlen; cbn [split_fill];
    pose proof (find_spec rest d) as Hs; destruct (find rest d) as [m|].
  - destruct Hs as (a & b & -> & _). rewrite app_length in Hn. cbn in Hn. lia.
  - rewrite positions_none by assumption. rewrite substr_to_end_at. cbn [bind repeat]. cbn [length]. cbn [repeat].
    rewrite Hlen, vector_set_at, pieces_plain, occurrences_none by assumption.
    destruct (i + 0 <=? 0x7fffffff) eqn:E; [reflexivity|]. replace (i <=? 0x7fffffff) with false by lia. reflexivity.
  - destruct Hs as (a & b & -> & <- & Ha). rewrite positions_cut by assumption.
    replace (length pre + 1 + length a - (length pre + 1))%nat with (length a) by lia.
    rewrite substr_at. cbn [bind length repeat]. rewrite Hlen, vector_set_at. cbn [bind].
    rewrite occurrences_app, occurrences_cons, Z.eqb_refl, (occurrences_none d a) by assumption. pose proof (occurrences_pos d b) as Hp.
    unfold int_incr. destruct (Z.ltb_spec i 0x7fffffff) as [Hlt|Hge]; cbn [bind].
    + replace (pre ++ d :: a ++ d :: b) with ((pre ++ d :: a) ++ d :: b) by (rewrite <- app_assoc; reflexivity).
      replace (length pre + 1 + length a)%nat with (length (pre ++ d :: a)) by (rewrite app_length; cbn [length]; lia).
      change ([] :: repeat [] ?k) with (repeat ([] : list Z) (S k)).
      replace (done ++ a :: repeat [] (S (length (positions d (length (pre ++ d :: a) + 1) b))))
        with ((done ++ [a]) ++ repeat [] (S (length (positions d (length (pre ++ d :: a) + 1) b)))) by (rewrite <- app_assoc; reflexivity).
      rewrite IH; [|rewrite app_length in Hn; cbn in Hn; lia|lia|rewrite app_length; cbn [length]; lia].
      rewrite pieces_cut by assumption. rewrite <- app_assoc. cbn [app].
      replace (i + 1 <=? 0x7fffffff) with true by lia. replace (i <=? 0x7fffffff) with true by lia.
      replace (i + (0 + (1 + occurrences d b))) with (i + 1 + occurrences d b) by lia. reflexivity.
    + replace (i + (0 + (1 + occurrences d b)) <=? 0x7fffffff) with false by lia.
      replace (0 + (1 + occurrences d b) =? 0) with false by lia. now destruct (i <=? 0x7fffffff).
  - rewrite positions_none by assumption. rewrite substr_to_end_at. cbn [bind repeat]. cbn [length]. cbn [repeat].
    rewrite Hlen, vector_set_at, pieces_plain, occurrences_none by assumption.
    destruct (i + 0 <=? 0x7fffffff) eqn:E; [reflexivity|]. replace (i <=? 0x7fffffff) with false by lia. reflexivity.
Qed.

Lemma split_spec s d : s <> [] ->
  split s d = if occurrences d s <? 0x80000000 then Done (pieces d s) else Undefined.
Proof.
  intros Hne. unfold split. destruct s as [|x0 s0] eqn:Es; [congruence|]. rewrite <- Es. clear Es Hne x0 s0.
  pose proof (find_spec s d) as Hs. destruct (find s d) as [m|].
  - destruct Hs as (a & b & -> & <- & Ha).
    rewrite (split_breaks_spec d (length b)); [|lia|rewrite app_length; cbn [length]; lia]. cbn [bind app hd length].
    assert (E0 : substr (a ++ d :: b) 0 (length a) = Done a).
    { unfold substr. cbn [skipn]. replace (length (a ++ d :: b) <? 0)%nat with false by (symmetry; apply Nat.ltb_ge; lia).
      now rewrite firstn_app, Nat.sub_diag, firstn_all, app_nil_r. }
    rewrite E0. cbn [bind]. replace (S (length (positions d (length a + 1) b)) + 1)%nat
      with (S (S (length (positions d (length a + 1) b)))) by lia. cbn [repeat vector_set bind]. unfold int_incr.
    change (0 <? 0x7fffffff) with true. cbn match. cbn [bind].
    change (a :: [] :: repeat [] (length (positions d (length a + 1) b))) with ([a] ++ repeat [] (S (length (positions d (length a + 1) b)))).
    rewrite (split_fill_spec d (length b)) by (try reflexivity; lia).
    rewrite pieces_cut, occurrences_app, occurrences_cons, Z.eqb_refl, (occurrences_none d a) by assumption. cbn [app].
    change (0 + 1 <=? 0x7fffffff) with true. cbn match.
    replace (0 + 1 + occurrences d b <=? 0x7fffffff) with (0 + (1 + occurrences d b) <? 0x80000000) by lia. reflexivity.
  - rewrite occurrences_none, pieces_plain by assumption. reflexivity.
Qed.

(* ---------------------------------------------------------------- join *)

Lemma join_loop_spec d v : forall r, join_loop v [d; 0] false r =
  Done (r ++ (if d =? 0 then concat v else flat_map (fun p => d :: p) v)).
Proof.
  induction v as [|p v IH]; intros r; cbn [join_loop].
  - destruct (d =? 0); cbn; now rewrite app_nil_r.
  - cbn [negb]. replace (basic_string (At [d; 0])) with (Done (if d =? 0 then [] else [d])) by (cbn; now destruct (d =? 0)).
    cbn [bind]. rewrite IH. destruct (d =? 0); cbn [concat flat_map]; rewrite <- !app_assoc; reflexivity.
Qed.
Lemma glue_flat d p v : glue d (p :: v) = p ++ flat_map (fun q => d :: q) v.
Proof.
  revert p; induction v as [|q v IH]; intros p; [cbn; now rewrite app_nil_r|]. rewrite glue_cons by discriminate. now rewrite IH.
Qed.
Lemma join_spec v d : d <> 0 -> join v d = Done (glue d v).
Proof.
  intros Hd. destruct v as [|p v]; [reflexivity|]. unfold join. cbn [join_loop negb bind app]. rewrite join_loop_spec, glue_flat.
  now replace (d =? 0) with false by lia.
Qed.
Lemma join_zero v : join v 0 = Done (concat v).
Proof. destruct v as [|p v]; [reflexivity|]. unfold join. cbn [join_loop negb bind app]. rewrite join_loop_spec. reflexivity. Qed.

(* ---------------------------------------------------------------- the statements *)

Lemma split_cuts s d : s <> [] -> occurrences d s < 0x80000000 ->
  exists v, split s d = Done v /\ cut_at d s v /\ Z.of_nat (length v) = 1 + occurrences d s.
Proof.
  intros Hne Ho. exists (pieces d s). rewrite split_spec by assumption. replace (occurrences d s <? 0x80000000) with true by lia.
  split; [reflexivity|]. split; [apply pieces_cut_at|apply pieces_count].
Qed.
Lemma cut_at_unique d s v v' : cut_at d s v -> cut_at d s v' -> v = v'.
Proof. intros H H'. now rewrite <- (pieces_unique d s v H), <- (pieces_unique d s v' H'). Qed.
Lemma split_empty d : split [] d = Done []. Proof. reflexivity. Qed.
Lemma split_overflow s d : 0x80000000 <= occurrences d s -> split s d = Undefined.
Proof.
  intros H. rewrite split_spec by (intros ->; unfold occurrences in H; cbn in H; lia).
  now replace (occurrences d s <? 0x80000000) with false by lia.
Qed.
Lemma occurrences_repeat d n : occurrences d (repeat d n) = Z.of_nat n.
Proof. induction n as [|n IH]; [reflexivity|]. cbn [repeat]. rewrite occurrences_cons, Z.eqb_refl, IH. lia. Qed.
Lemma split_overflow_refuted : exists s, forall d, In d s -> split s d = Undefined.
Proof.
  exists (repeat 0x2C (Z.to_nat 0x80000000)). intros d Hd. apply repeat_spec in Hd. subst d.
  apply split_overflow. rewrite occurrences_repeat, Z2Nat.id by lia. lia.
Qed.

Lemma join_split s d : d <> 0 -> occurrences d s < 0x80000000 -> exists v, split s d = Done v /\ join v d = Done s.
Proof.
  intros Hd Ho. destruct s as [|x s'] eqn:E; [exists []; split; reflexivity|]. rewrite <- E in *.
  destruct (split_cuts s d) as (v & Hv & (_ & _ & Hg) & _); [rewrite E; discriminate|assumption|].
  exists v. split; [assumption|]. rewrite join_spec by assumption. now rewrite Hg.
Qed.
Lemma concat_pieces d s : concat (pieces d s) = filter (fun x => negb (x =? d)) s.
Proof.
  induction s as [|x r IH]; [reflexivity|]. cbn [pieces filter]. destruct (x =? d); cbn [negb concat app]; [assumption|].
  rewrite <- IH. pose proof (pieces_ne d r). destruct (pieces d r); [congruence|reflexivity].
Qed.
Lemma join_split_zero s : occurrences 0 s < 0x80000000 ->
  exists v, split s 0 = Done v /\ join v 0 = Done (filter (fun x => negb (x =? 0)) s).
Proof.
  intros Ho. destruct s as [|x s'] eqn:E; [exists []; split; reflexivity|]. rewrite <- E in *.
  exists (pieces 0 s). rewrite split_spec by (rewrite E; discriminate). replace (occurrences 0 s <? 0x80000000) with true by lia.
  split; [reflexivity|]. rewrite join_zero, concat_pieces. reflexivity.
Qed.
Lemma join_split_refuted : exists s d, exists v, split s d = Done v /\ join v d <> Done s.
Proof. exists [0x61; 0; 0x62], 0, [[0x61]; [0x62]]. split; [reflexivity|discriminate]. Qed.

Lemma glue_nil d v : glue d v = [] -> v = [] \/ v = [[]].
Proof.
  intros H. destruct v as [|p v]; [now left|right]. destruct v as [|q v]; [cbn in H; now subst|].
  rewrite glue_cons in H by discriminate. symmetry in H. now apply app_cons_not_nil in H.
Qed.
Lemma split_join v d : d <> 0 -> Forall (fun p => ~ In d p) v -> v <> [[]] -> Z.of_nat (length v) <= 0x80000000 ->
  exists s, join v d = Done s /\ split s d = Done v.
Proof.
  intros Hd HF Hne Hlen. exists (glue d v). rewrite join_spec by assumption. split; [reflexivity|].
  destruct v as [|p v]; [reflexivity|]. assert (Hc : cut_at d (glue d (p :: v)) (p :: v)) by (split; [discriminate|auto]).
  rewrite split_spec by (intros H; destruct (glue_nil _ _ H) as [H'|H']; [discriminate|contradiction]).
  pose proof (pieces_count d (glue d (p :: v))) as Hk. rewrite (pieces_unique _ _ _ Hc) in *.
  replace (occurrences d (glue d (p :: v)) <? 0x80000000) with true by lia. reflexivity.
Qed.
Lemma glue_size d v : v <> [] -> Z.of_nat (length (glue d v)) = total v + (Z.of_nat (length v) - 1).
Proof.
  intros Hne. induction v as [|p v IH]; [congruence|]. destruct v as [|q v]; [cbn; lia|].
  rewrite glue_cons by discriminate. rewrite app_length. cbn [length]. specialize (IH ltac:(discriminate)).
  change (total (p :: q :: v)) with (Z.of_nat (length p) + total (q :: v)). cbn [length] in *. lia.
Qed.
Lemma join_glues v d : d <> 0 -> exists r, join v d = Done r /\ r = glue d v /\
  (v <> [] -> Z.of_nat (length r) = total v + (Z.of_nat (length v) - 1)).
Proof. intros Hd. exists (glue d v). rewrite join_spec by assumption. split; [reflexivity|]. split; [reflexivity|]. apply glue_size. Qed.
Lemma join_zero_refuted : exists v d, join v d <> Done (glue d v).
Proof. exists [[0x61]; [0x62]], 0. discriminate. Qed.
Lemma glue_empties d n : glue d (repeat [] (S n)) = repeat d n.
Proof.
  induction n as [|n IH]; [reflexivity|]. change (repeat [] (S (S n))) with (@nil Z :: repeat [] (S n)).
  rewrite glue_cons by discriminate. cbn [app]. now rewrite IH.
Qed.
Lemma split_join_overflow : exists s d v, d <> 0 /\ Forall (fun p => ~ In d p) v /\ v <> [[]] /\
  join v d = Done s /\ split s d = Undefined.
Proof.
  exists (repeat 0x2C (Z.to_nat 0x80000000)), 0x2C, (repeat [] (S (Z.to_nat 0x80000000))). split; [discriminate|].
  split; [apply Forall_forall; intros p Hp; apply repeat_spec in Hp; subst p; intros []|].
  split; [|split].
  - intros H. apply (f_equal (fun v => Z.of_nat (length v))) in H. rewrite repeat_length, Nat2Z.inj_succ, Z2Nat.id in H by lia.
    cbn [length] in H. lia.
  - rewrite join_spec by discriminate. now rewrite glue_empties.
  - apply split_overflow. rewrite occurrences_repeat, Z2Nat.id by lia. lia.
Qed.
