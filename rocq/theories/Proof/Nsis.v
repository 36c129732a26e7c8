(** The installer and the uninstaller, step by step. *)
From Coq Require Import ZArith List Bool String Ascii Lia.
From Verif Require Import Model.Make Model.Unix Model.Nsis Spec.Install Spec.Nsis.
From Verif Require Spec.Unix.
From Verif Require Import Proof.InstallFacts Proof.Unix.
Import ListNotations.
Open Scope string_scope.
Open Scope list_scope.

(** * un.isEmptyDir *)

Lemma names_nil : forall d p, names_in d p = [] <-> ~ occupied d p.
Proof.
  intros d p. split.
  - intros E (x & H). apply names_in_true in H. now rewrite E in H.
  - intro N. destruct (names_in d p) as [|x l] eqn:E; [reflexivity|]. exfalso. apply N. exists x.
    apply names_in_true. rewrite E. now left.
Qed.

Lemma close_other : forall l n, (forall k x, In (k, x) l -> k < n) -> close l n = l.
Proof.
  induction l as [|(k, x) l IH]; intros n H; [reflexivity|]. unfold close. cbn [filter fst].
  assert (K : k < n) by (eapply H; now left). replace (Nat.eqb k n) with false by (symmetry; apply Nat.eqb_neq; lia).
  cbn [negb]. fold (close l n). f_equal. apply IH. intros j y J. apply (H j y). now right.
Qed.

Lemma close_cons : forall l n x, close ((n, x) :: l) n = close l n.
Proof. intros. unfold close. cbn [filter fst]. now rewrite Nat.eqb_refl. Qed.

Definition orderly (m : machine) : Prop := forall k x, In (k, x) (searches m) -> k < counter m.

Theorem is_empty_dir : forall d p st m, stack m = Place p :: st -> orderly m ->
  exists m', call d m = Some m' /\
    (exists t, stack m' = Text t :: st /\ (t = "1" \/ t = "0") /\ (t = "1" <-> vacant d p)) /\
    r0 m' = r0 m /\ r1 m' = r1 m /\ errors m' = false /\ searches m' = searches m /\ orderly m'.
Proof.
  intros d p st [a b stk e ss n] S O. cbn [stack] in S. subst stk. unfold orderly in *. cbn [searches counter] in O.
  pose proof (close_other ss n O) as C.
  unfold call, un_isEmptyDir.
  cbn -[is_dir names_in close].
  destruct (is_dir d p) eqn:D; cbn -[is_dir names_in close].
  - rewrite !Nat.eqb_refl. cbn -[is_dir names_in close]. rewrite !close_cons, C.
    rewrite !Nat.eqb_refl. cbn -[is_dir names_in close].
    apply is_dir_true in D. destruct (names_in d p) as [|x l] eqn:N; cbn -[is_dir names_in close].
    + repeat (rewrite close_cons || rewrite C). eexists. split; [reflexivity|]. cbn [stack r0 r1 errors searches counter].
      apply names_nil in N. repeat split; auto.
      * exists "1". repeat split; auto.
      * intros k x K. apply O in K. lia.
    + repeat (rewrite close_cons || rewrite C). eexists. split; [reflexivity|]. cbn [stack r0 r1 errors searches counter].
      repeat split; auto.
      * exists "0". repeat split; auto; try discriminate. intros (_ & V). apply names_nil in V. congruence.
      * intros k y K. apply O in K. lia.
  - eexists. split; [reflexivity|]. cbn [stack r0 r1 errors searches counter]. repeat split; auto.
    exists "0". repeat split; auto; try discriminate. intros (V & _). apply is_dir_true in V. congruence.
Qed.

Lemma answers : forall d p, answers_one d p fresh_machine = true <-> vacant d p.
Proof.
  intros d p. unfold answers_one.
  destruct (is_empty_dir d p [] (with_stack (Place p :: stack fresh_machine) fresh_machine) eq_refl) as
    (m' & -> & (t & -> & T & V) & _).
  - intros k x [].
  - rewrite <- V. apply String.eqb_eq.
Qed.

(** * Files from the installer *)

Lemma write_step : forall p data d r d', p <> [] -> write p data d = (r, d') ->
  (r = Returned tt /\ set_at d p (Some (File data)) d' /\ look d p <> Some Dir /\ writable d p = true) \/
  (exists e, r = Raised e /\ d' = d).
Proof.
  intros p data d r d' N H. unfold write in H.
  destruct (look d p) as [[|x]|] eqn:L; [injection H as <- <-; right; eauto| |];
    (destruct (negb (is_dir d (parent p))); [injection H as <- <-; right; eauto|];
     destruct (writable d p) eqn:W; cbn [negb] in H; injection H as <- <-; [left|right; eauto];
     repeat split; try congruence; intro q; now rewrite look_put).
Qed.

(** Directories stay, and what changes is known. *)
Definition added (P : path -> option node -> Prop) (d d' : disk) (p : path) : Prop :=
  look d' p = look d p \/
  (P p (look d' p) /\ look d p <> Some Dir /\ look d' p <> None /\ (look d' p = Some Dir -> look d p = None)).

Definition adds (P : path -> option node -> Prop) (m : io unit) : Prop :=
  forall d r d', m d = (r, d') -> writable d' = writable d /\ forall p, added P d d' p.

Lemma adds_more : forall (P Q : path -> option node -> Prop) m, (forall p n, P p n -> Q p n) -> adds P m -> adds Q m.
Proof.
  intros P Q m K H d r d' E. destruct (H d r d' E) as (W & L). split; [assumption|].
  intro p. destruct (L p) as [|(A & B)]; [now left|right; auto].
Qed.

Lemma adds_trans : forall (P : path -> option node -> Prop) d d1 d2,
  (forall p, added P d d1 p) -> (forall p, added P d1 d2 p) -> forall p, added P d d2 p.
Proof.
  intros P d d1 d2 H K p. unfold added in *. destruct (K p) as [E2|(A & B & C & D)].
  - destruct (H p) as [E1|(A & B & C & D)]; [left; congruence|right]. rewrite E2. auto.
  - right. repeat split; try assumption.
    + destruct (H p) as [E1|(_ & F & _)]; [congruence|assumption].
    + intro Q. specialize (D Q). destruct (H p) as [E1|(_ & _ & F & _)]; congruence.
Qed.

Lemma adds_then : forall P m k, adds P m -> adds P (k tt) -> adds P (andthen m k).
Proof.
  intros P m k H K d r d' E. unfold andthen in E. destruct (m d) as [[[]|e] d1] eqn:M.
  - destruct (H _ _ _ M) as (W1 & L1). destruct (K _ _ _ E) as (W2 & L2). split; [congruence|].
    eapply adds_trans; eassumption.
  - injection E as <- <-. exact (H _ _ _ M).
Qed.

Lemma adds_ret : forall P, adds P (ret tt).
Proof. intros P d r d' E. injection E as <- <-. split; [reflexivity|now left]. Qed.

Lemma adds_semicolon : forall P a b, adds P a -> adds P b -> adds P (semicolon a b).
Proof.
  intros P a b H K d r d' E. unfold semicolon in E. destruct (a d) as [r1 d1] eqn:A. cbn [snd] in E.
  destruct (H _ _ _ A) as (W1 & L1). destruct (K _ _ _ E) as (W2 & L2). split; [congruence|].
  eapply adds_trans; eassumption.
Qed.

Lemma adds_each : forall A (f : A -> io unit) P l, (forall a, In a l -> adds P (f a)) -> adds P (each f l).
Proof.
  induction l as [|a l IH]; intro H; cbn [each]; [apply adds_ret|].
  apply adds_then; [apply H; now left|]. apply IH. intros b B. apply H. now right.
Qed.

Lemma adds_mkdir_p : forall p, adds (fun q n => Unix.leads_to q p /\ n = Some Dir) (mkdir_p p).
Proof.
  intros p d r d' H. destruct (mkdir_p_any _ _ _ _ H) as (W & L). split; [assumption|].
  intro q. destruct (L q) as [|(E & F & _ & K)]; [now left|right]. repeat split; congruence.
Qed.

Lemma adds_write : forall p data, p <> [] -> adds (fun q n => p = q /\ n = Some (File data)) (write p data).
Proof.
  intros p data N d r d' H. destruct (write_step _ _ _ _ _ N H) as [(_ & (W & L) & D & _)|(e & _ & ->)].
  - split; [assumption|]. intro q. unfold added. rewrite L. destruct (same p q) eqn:S; [|now left].
    apply same_true in S. subst q. right. repeat split; try congruence.
  - split; [reflexivity|now left].
Qed.

(** * The installer *)

Definition carried (pkg : list group) (s : path) (data : list Z) : Prop :=
  exists g fs x, In (g, fs) pkg /\ In (x, data) fs /\ s = g ++ [x].

Lemma last_not_nil : forall (a b : path) x, a ++ b ++ [x] <> [].
Proof. intros a b x E. apply app_eq_nil in E. destruct E as (_ & E). destruct b; discriminate. Qed.

Lemma install_group_adds : forall inst g,
  adds (fun p n => (Unix.leads_to p (inst ++ fst g) /\ n = Some Dir) \/
                   exists x data, In (x, data) (snd g) /\ p = inst ++ fst g ++ [x] /\ n = Some (File data))
       (install_group inst g).
Proof.
  intros inst g. unfold install_group. apply adds_semicolon.
  - eapply adds_more; [|apply adds_mkdir_p]. intros p n H. now left.
  - apply adds_each. intros (x, data) I. eapply adds_more; [|apply adds_write, last_not_nil].
    intros p n (<- & ->). right. exists x, data. now split.
Qed.

Lemma install_adds : forall pkg inst exe,
  adds (fun p n => (exists g, In g (map fst pkg) /\ Unix.leads_to p (inst ++ g) /\ n = Some Dir) \/
                   (exists s data, carried pkg s data /\ p = inst ++ s /\ n = Some (File data)) \/
                   (p = inst ++ [uninstaller_name] /\ n = Some (File exe)))
       (install_section pkg inst exe).
Proof.
  intros pkg inst exe. unfold install_section. apply adds_then.
  - apply adds_each. intros g I. eapply adds_more; [|apply install_group_adds].
    intros p n [H|(x & data & J & -> & ->)].
    + left. exists (fst g). split; [now apply in_map|assumption].
    + right. left. exists (fst g ++ [x]), data. split; [|now split]. exists (fst g), (snd g), x.
      destruct g. now repeat split.
  - apply adds_semicolon; [|apply adds_ret]. eapply adds_more; [|apply adds_write; destruct inst; discriminate].
    intros p n (<- & ->). now right; right.
Qed.

(** A list of files, none twice. *)
Lemma each_writes : forall inst g fs d d', NoDup (map fst fs) ->
  each (fun f => write (inst ++ g ++ [fst f]) (snd f)) fs d = (Returned tt, d') ->
  forall x data, In (x, data) fs -> look d' (inst ++ g ++ [x]) = Some (File data).
Proof.
  induction fs as [|(y, c) fs IH]; intros d d' N H x data I; [destruct I|].
  cbn [each] in H. unfold andthen in H. cbn [fst snd] in H.
  destruct (write (inst ++ g ++ [y]) c d) as [[[]|e] d1] eqn:W; [|discriminate].
  cbn [map fst] in N. apply NoDup_cons_iff in N. destruct N as (N1 & N2).
  destruct I as [I|I]; [|now apply (IH d1 d' N2 H)].
  injection I as -> ->.
  destruct (write_step _ _ _ _ _ (last_not_nil _ _ _) W) as [(_ & (_ & L) & _)|(e & Q & _)]; [|discriminate].
  assert (A : adds (fun p _ => exists z, In z (map fst fs) /\ p = inst ++ g ++ [z])
                   (each (fun f => write (inst ++ g ++ [fst f]) (snd f)) fs)).
  { apply adds_each. intros (z, c) J. eapply adds_more; [|apply adds_write, last_not_nil].
    intros p n (<- & _). exists z. split; [apply (in_map fst) in J; exact J|reflexivity]. }
  destruct (A _ _ _ H) as (_ & B). destruct (B (inst ++ g ++ [x])) as [E|((z & Z & E) & _)].
  - rewrite E, L. now rewrite same_refl.
  - apply app_inv_head, app_inv_head in E. injection E as ->. contradiction.
Qed.

Lemma each_groups : forall inst pkg d d', NoDup (map fst pkg) ->
  (forall g fs, In (g, fs) pkg -> NoDup (map fst fs)) ->
  (forall g fs x data s, In (g, fs) pkg -> In (x, data) fs -> ~ In (g ++ [x] ++ s) (map fst pkg)) ->
  each (install_group inst) pkg d = (Returned tt, d') ->
  forall s data, carried pkg s data -> look d' (inst ++ s) = Some (File data).
Proof.
  intros inst pkg. induction pkg as [|(g, fs) pkg IH]; intros d d' N F A H s data C.
  - destruct C as (g & fs & x & [] & _).
  - cbn [each] in H. unfold andthen in H.
    destruct (install_group inst (g, fs) d) as [[[]|e] d1] eqn:G; [|discriminate].
    cbn [map fst] in N. apply NoDup_cons_iff in N. destruct N as (N1 & N2).
    destruct C as (g' & fs' & x & [I|I] & J & ->).
    + injection I as <- <-.
      assert (B : look d1 (inst ++ g ++ [x]) = Some (File data)).
      { unfold install_group in G. cbn [fst snd] in G. unfold semicolon in G.
        eapply each_writes; [|exact G|exact J]. eapply F. now left. }
      assert (Q : adds (fun p _ => (exists h, In h (map fst pkg) /\ Unix.leads_to p (inst ++ h)) \/
          exists h y, In h (map fst pkg) /\ p = inst ++ h ++ [y]) (each (install_group inst) pkg)).
      { apply adds_each. intros (h, gs) K. eapply adds_more; [|apply install_group_adds].
        cbn [fst snd]. apply (in_map fst) in K. cbn [fst] in K.
        intros p n [(P & _)|(y & c & _ & -> & _)]; [left|right]; eauto. }
      destruct (Q _ _ _ H) as (_ & L). destruct (L (inst ++ g ++ [x])) as [E|([(h & K & (t & E))|(h & y & K & E)] & _)].
      * congruence.
      * exfalso. rewrite <- app_assoc in E. apply app_inv_head in E. subst h.
        apply (A g fs x data t); [now left|assumption|]. right. now rewrite <- app_assoc in K.
      * apply app_inv_head, app_inj_tail in E. destruct E as (-> & _). contradiction.
    + apply (IH d1 d' N2); try assumption.
      * intros h gs K. apply (F h). now right.
      * intros h gs y c t K K' K2. apply (A h gs y c t); [now right|assumption|now right].
      * exists g', fs', x. now repeat split.
Qed.

(** What makensis packs *)
Lemma collect_in : forall d p x data, In (x, data) (collect d p) <-> look d (p ++ [x]) = Some (File data).
Proof.
  intros d p x data. unfold collect. rewrite in_flat_map. split.
  - intros (y & _ & I). destruct (look d (p ++ [y])) as [[|c]|] eqn:E; [destruct I| |destruct I].
    destruct I as [I|[]]. injection I as -> ->. assumption.
  - intro E. exists x. split; [apply names_in_true; congruence|]. rewrite E. now left.
Qed.

Lemma collect_nodup : forall d p, NoDup (map fst (collect d p)).
Proof.
  intros d p. unfold collect. assert (N : NoDup (names_in d p)) by apply NoDup_nodup.
  revert N. generalize (names_in d p). induction l as [|x l IH]; intro N; [constructor|].
  apply NoDup_cons_iff in N. destruct N as (N1 & N2). cbn [flat_map]. rewrite map_app.
  assert (Q : ~ In x (map fst (flat_map (fun x => match look d (p ++ [x]) with Some (File data) => [(x, data)] | _ => [] end) l))).
  { intro I. apply in_map_iff in I. destruct I as ((y, c) & E & I). cbn [fst] in E. subst y.
    apply in_flat_map in I. destruct I as (z & Z & I). destruct (look d (p ++ [z])) as [[|c']|]; [destruct I| |destruct I].
    destruct I as [I|[]]. injection I as -> ->. contradiction. }
  destruct (look d (p ++ [x])) as [[|c]|]; cbn [map app fst]; try (now apply IH). constructor; [assumption|now apply IH].
Qed.

Lemma pack_groups_in : forall root gs d l, pack_groups root gs d = Some l ->
  map fst l = gs /\ forall g fs, In (g, fs) l -> fs = collect d (root ++ g) /\ fs <> [].
Proof.
  induction gs as [|g gs IH]; intros d l H; cbn [pack_groups] in H.
  - injection H as <-. split; [reflexivity|intros ? ? []].
  - destruct (collect d (root ++ g)) as [|f fs] eqn:C; [discriminate|].
    destruct (pack_groups root gs d) as [l'|] eqn:P; [|discriminate]. injection H as <-.
    destruct (IH _ _ P) as (M & I). split; [cbn [map fst]; now rewrite M|].
    intros h hs [E|E]; [|now apply I]. injection E as <- <-. split; [now symmetry|discriminate].
Qed.

Lemma pack_in : forall root d pkg, pack root d = Some pkg ->
  map fst pkg = [] :: groups /\
  (forall g fs, In (g, fs) pkg -> NoDup (map fst fs)) /\
  (forall s data, carried pkg s data <->
     ((s = cmake_file \/ exists g x, In g groups /\ s = g ++ [x]) /\ look d (root ++ s) = Some (File data))).
Proof.
  intros root d pkg H. unfold pack in H.
  destruct (look d (root ++ ["FindANSAK.cmake"])) as [[|c]|] eqn:L; try discriminate.
  destruct (pack_groups root groups d) as [l|] eqn:P; [|discriminate]. injection H as <-.
  destruct (pack_groups_in _ _ _ _ P) as (M & I). split; [cbn [map fst]; now rewrite M|]. split.
  - intros g fs [E|E].
    + injection E as <- <-. repeat constructor. intros [].
    + destruct (I _ _ E) as (-> & _). apply collect_nodup.
  - intros s data. split.
    + intros (g & fs & x & [E|E] & J & ->).
      * injection E as <- <-. destruct J as [J|[]]. injection J as <- <-. split; [now left|assumption].
      * destruct (I _ _ E) as (-> & _). apply collect_in in J. split.
        -- right. exists g, x. split; [|reflexivity]. rewrite <- M. apply (in_map fst) in E. exact E.
        -- now rewrite <- app_assoc in J.
    + intros ([->|(g & x & G & ->)] & E).
      * exists [], [("FindANSAK.cmake", c)], "FindANSAK.cmake". split; [now left|]. split; [left|reflexivity].
        unfold cmake_file in E. congruence.
      * rewrite <- M in G. apply in_map_iff in G. destruct G as ((g', fs) & K & G). cbn [fst] in K. subst g'.
        destruct (I _ _ G) as (Q & _). exists g, fs, x. split; [now right|]. split; [|reflexivity].
        rewrite Q. apply collect_in. now rewrite <- app_assoc.
Qed.

Lemma groups_apart : NoDup ([] :: groups).
Proof. repeat constructor; cbn; intuition discriminate. Qed.

Lemma groups_holds : forall g, In g groups <-> holds g.
Proof.
  intro g. split.
  - intro H. cbn in H. repeat (destruct H as [<-|H]; [constructor; cbn; tauto|]). destruct H.
  - intros [|a c A C]; [cbn; tauto|]. cbn in A, C.
    repeat (destruct A as [<-|A]; [repeat (destruct C as [<-|C]; [cbn; tauto|]); destruct C|]). destruct A.
Qed.
