(** Removal, the way back, and the soundness of the disk. *)
From Coq Require Import ZArith List Bool String Ascii Lia.
From Verif Require Import Model.Make Spec.Install.
From Verif Require Import Proof.InstallFacts Proof.InstallRun Proof.InstallDone.
Import ListNotations.
Open Scope string_scope.
Open Scope list_scope.

(** * One removal *)

Lemma not_nil_of_file : forall d p data, look d p = Some (File data) -> p <> [].
Proof. intros d p data H ->. discriminate. Qed.

Lemma rm_f_step : forall p d r d', rm_f p d = (r, d') ->
  (r = Returned tt /\ set_at d p None d' /\ a_file (look d p)) \/
  (r = Returned tt /\ d' = d /\ (look d (parent p) = Some Dir -> ~ a_file (look d p))) \/
  (r = Raised Denied /\ d' = d /\ writable d p = false).
Proof.
  intros p d r d' H. unfold rm_f in H.
  destruct (is_dir d (parent p) && is_file d p) eqn:E.
  - apply andb_true_iff in E. destruct E as (_ & E). apply is_file_true in E. destruct E as (data & E).
    unfold unlink in H. rewrite E in H. destruct (writable d p) eqn:W; injection H as <- <-.
    + left. split; [reflexivity|]. split; [|now exists data]. apply drop_set. eapply not_nil_of_file; eassumption.
    + right. right. auto.
  - injection H as <- <-. right. left. split; [reflexivity|]. split; [reflexivity|].
    intros D F. apply is_dir_true in D. rewrite D in E. cbn in E.
    assert (is_file d p = true) by now apply is_file_true. congruence.
Qed.

Lemma rmdir_step : forall p d r d', p <> [] -> rmdir_if_empty p d = (r, d') ->
  (r = Returned tt /\ set_at d p None d' /\ look d p = Some Dir /\ (forall x, look d (p ++ [x]) = None)) \/
  (r = Returned tt /\ d' = d /\ (look d p = Some Dir -> occupied d p)) \/
  (r = Raised Denied /\ d' = d /\ writable d p = false).
Proof.
  intros p d r d' N H. unfold rmdir_if_empty in H.
  destruct (is_dir d p) eqn:D.
  - apply is_dir_true in D. destruct (is_empty d p) eqn:E.
    + unfold rmdir in H. rewrite D, E in H. cbn [negb] in H.
      destruct (writable d p) eqn:W; injection H as <- <-.
      * left. split; [reflexivity|]. split; [now apply drop_set|]. split; [assumption|]. now apply is_empty_true.
      * right. right. auto.
    + injection H as <- <-. right. left. split; [reflexivity|]. split; [reflexivity|]. intros _.
      unfold is_empty in E. apply negb_false_iff in E. apply existsb_exists in E.
      destruct E as ((q & n) & Hin & E). unfold child_of in E. cbn [fst] in E.
      destruct q as [|a q]; [discriminate|]. apply same_true in E. unfold parent in E.
      pose proof (app_removelast_last "" (l := a :: q) ltac:(discriminate)) as S.
      rewrite E in S. exists (last (a :: q) ""). rewrite <- S. cbn [look]. eapply in_find; eassumption.
  - injection H as <- <-. right. left. split; [reflexivity|]. split; [reflexivity|].
    intro F. apply is_dir_true in F. congruence.
Qed.

Lemma removal_named : forall r, In r removals -> removed r <> [].
Proof.
  intros r H. assert (A : forallb (fun r => match removed r with [] => false | _ => true end) removals = true)
    by (vm_compute; reflexivity).
  rewrite forallb_forall in A. specialize (A r H). destruct (removed r); [discriminate|easy].
Qed.

Lemma app_not_nil : forall (p s : path), s <> [] -> p ++ s <> [].
Proof. intros p s H E. apply app_eq_nil in E. now destruct E. Qed.

(** Removals change nothing but what they name, and there only take away. *)
Lemma removals_any : forall prefix l d r d',
  (forall x, In x l -> removed x <> []) ->
  each (remove_one prefix) l d = (r, d') ->
  writable d' = writable d /\
  forall p, look d' p = look d p \/
            (look d' p = None /\ exists x, In x l /\ p = prefix ++ removed x).
Proof.
  intros prefix l. induction l as [|x l IH]; intros d r d' Hn H.
  - cbn in H. injection H as <- <-. split; [reflexivity|]. now left.
  - cbn [each] in H. unfold andthen in H. destruct (remove_one prefix x d) as [r1 d1] eqn:E.
    assert (S : (d1 = d \/ set_at d (prefix ++ removed x) None d1) /\ (r1 = Returned tt \/ r1 = Raised Denied)).
    { destruct x as [s|s]; cbn [remove_one removed] in *.
      - apply rm_f_step in E. destruct E as [(-> & A & _)|[(-> & A & _)|(-> & A & _)]]; auto.
      - apply rmdir_step in E; [|apply app_not_nil; apply (Hn (Rmdir s)); now left].
        destruct E as [(-> & A & _)|[(-> & A & _)|(-> & A & _)]]; auto. }
    destruct S as (S & R).
    assert (S' : writable d1 = writable d /\ forall p, look d1 p = look d p \/
      (look d1 p = None /\ p = prefix ++ removed x)).
    { destruct S as [->|(Sw & Sl)]; [split; [reflexivity|now left]|].
      split; [assumption|]. intro p. rewrite Sl. destruct (same _ p) eqn:F; [|now left].
      apply same_true in F. auto. }
    clear S. destruct S' as (Sw & Sl). destruct R as [->| ->].
    + apply IH in H; [|intros; apply Hn; now right]. destruct H as (Hw & Hl).
      split; [congruence|]. intro p. destruct (Hl p) as [A|(A & y & Y & B)].
      * rewrite A. destruct (Sl p) as [B|(B & C)]; [now left|]. right. split; [assumption|].
        exists x. split; [now left|assumption].
      * right. split; [assumption|]. exists y. split; [now right|assumption].
    + injection H as <- <-. split; [assumption|]. intro p. destruct (Sl p) as [B|(B & C)]; [now left|].
      right. split; [assumption|]. exists x. split; [now left|assumption].
Qed.

Lemma removals_ours : forall x, In x removals -> our_file (removed x) \/ our_directory (removed x).
Proof.
  intros x H. assert (A : forallb (fun x => in_paths (removed x) all_files || in_paths (removed x) all_dirs) removals = true)
    by (vm_compute; reflexivity).
  rewrite forallb_forall in A. specialize (A x H). apply orb_true_iff in A.
  destruct A as [A|A]; apply in_paths_true in A; [left; now apply our_file_in|right; now apply our_directory_in].
Qed.

Lemma uninstall_any : forall prefix d r d', uninstall prefix d = (r, d') ->
  untouched_but (ours prefix) d d' /\
  forall p, look d' p = look d p \/ look d' p = None.
Proof.
  intros prefix d r d' H. rewrite uninstall_steps in H. apply or_exit_disk in H. destruct H as (r' & H).
  apply removals_any in H; [|exact removal_named]. destruct H as (Hw & Hl). split.
  - split; [assumption|]. intros p K. destruct (Hl p) as [A|(_ & x & X & ->)]; [assumption|].
    exfalso. apply K. exists (removed x). split; [reflexivity|]. now apply removals_ours.
  - intro p. destruct (Hl p) as [A|(A & _)]; auto.
Qed.

(** * What a removal that returns has done *)

(** [done] is what has been removed so far, in any order. *)
Definition gone (prefix : path) (d : disk) (x : removal) : Prop :=
  match x with
  | Rm s => look d (prefix ++ parent s) = Some Dir -> ~ a_file (look d (prefix ++ s))
  | Rmdir s => look d (prefix ++ s) = Some Dir -> occupied d (prefix ++ s)
  end.

(** Later removals do not take anything out of a directory that was dealt with. *)
Fixpoint in_order (l : list removal) : bool :=
  match l with
  | [] => true
  | x :: l => forallb (fun y => match x with
                                | Rm _ => true
                                | Rmdir s => negb (same (parent (removed y)) s)
                                end) l && in_order l
  end.

Lemma parent_below : forall prefix s, s <> [] -> parent (prefix ++ s) = prefix ++ parent s.
Proof. intros prefix s H. unfold parent. now apply removelast_app. Qed.

Lemma removals_done : forall prefix l d d',
  (forall x, In x l -> removed x <> []) -> in_order l = true ->
  each (remove_one prefix) l d = (Returned tt, d') ->
  forall x, In x l -> gone prefix d' x.
Proof.
  intros prefix l. induction l as [|x l IH]; intros d d' Hn Ho H y Hy; [easy|].
  cbn [in_order] in Ho. apply andb_true_iff in Ho. destruct Ho as (Ho & Ho').
  cbn [each] in H. unfold andthen in H. destruct (remove_one prefix x d) as [[u|e] d1] eqn:E; [|discriminate].
  assert (Hn' : forall x, In x l -> removed x <> []) by (intros; apply Hn; now right).
  destruct Hy as [<-|Hy]; [|now apply (IH d1 d' Hn' Ho' H)].
  pose proof (removals_any _ _ _ _ _ Hn' H) as (_ & Hl). clear IH.
  assert (Nx : removed x <> []) by (apply Hn; now left).
  destruct x as [s|s]; cbn [remove_one gone removed] in *.
  - apply rm_f_step in E. rewrite parent_below in E by assumption.
    intros P (data & F).
    assert (F1 : look d1 (prefix ++ s) = Some (File data)) by (destruct (Hl (prefix ++ s)) as [A|(A & _)]; congruence).
    assert (P1 : look d1 (prefix ++ parent s) = Some Dir) by (destruct (Hl (prefix ++ parent s)) as [A|(A & _)]; congruence).
    destruct E as [(_ & (_ & Sl) & _)|[(_ & -> & K)|(K & _)]].
    + rewrite Sl, same_refl in F1. discriminate.
    + apply (K P1). now exists data.
    + discriminate.
  - intro D.
    assert (D1 : look d1 (prefix ++ s) = Some Dir) by (destruct (Hl (prefix ++ s)) as [A|(A & _)]; congruence).
    apply rmdir_step in E; [|now apply app_not_nil].
    destruct E as [(_ & (_ & Sl) & _)|[(_ & -> & K)|(K & _)]].
    + rewrite Sl, same_refl in D1. discriminate.
    + destruct (K D1) as (x & X). exists x.
      destruct (Hl ((prefix ++ s) ++ [x])) as [A|(_ & z & Z & B)]; [congruence|].
      exfalso. rewrite forallb_forall in Ho. specialize (Ho z Z). apply negb_true_iff, same_false in Ho.
      apply Ho. rewrite <- app_assoc in B. apply app_inv_head in B. rewrite <- B. apply parent_app.
    + discriminate.
Qed.

(** The steps keep a disk sound. *)
Lemma removals_sound : forall prefix l d r d',
  (forall x, In x l -> removed x <> []) ->
  each (remove_one prefix) l d = (r, d') -> sound d -> sound d'.
Proof.
  intros prefix l. induction l as [|y l IH]; intros d r d' Hn H W.
  - cbn in H. injection H as <- <-. assumption.
  - cbn [each] in H. unfold andthen in H.
    destruct (remove_one prefix y d) as [r1 d1] eqn:E.
    assert (W1 : sound d1).
    { assert (Ny : removed y <> []) by (apply Hn; now left).
      destruct y as [s|s]; cbn [remove_one removed] in *.
      - apply rm_f_step in E. destruct E as [(_ & (_ & Sl) & (da & Fi))|[(_ & -> & _)|(_ & -> & _)]]; try assumption.
        intros p z K. rewrite Sl in *. destruct (same (prefix ++ s) (p ++ [z])); [congruence|].
        pose proof (W _ _ K) as D. destruct (same (prefix ++ s) p) eqn:X; [|assumption].
        apply same_true in X. subst p. congruence.
      - apply rmdir_step in E; [|now apply app_not_nil].
        destruct E as [(_ & (_ & Sl) & Di & Em)|[(_ & -> & _)|(_ & -> & _)]]; try assumption.
        intros p z K. rewrite Sl in *. destruct (same (prefix ++ s) (p ++ [z])); [congruence|].
        pose proof (W _ _ K) as D. destruct (same (prefix ++ s) p) eqn:X; [|assumption].
        apply same_true in X. subst p. rewrite Em in K. congruence. }
    destruct r1 as [u|e]; [|injection H as <- <-; assumption].
    eapply IH; [intros; apply Hn; now right|eassumption|assumption].
Qed.

Lemma uninstall_sound : forall prefix d r d', uninstall prefix d = (r, d') -> sound d -> sound d'.
Proof.
  intros prefix d r d' H. rewrite uninstall_steps in H. apply or_exit_disk in H. destruct H as (r' & H).
  eapply removals_sound; [exact removal_named|eassumption].
Qed.

Lemma create_dirs_sound : forall ds d r d', create_dirs ds d = (r, d') -> sound d -> sound d'.
Proof.
  induction ds as [|q ds IH]; intros d r d' H W.
  - cbn in H. injection H as <- <-. assumption.
  - cbn [create_dirs] in H. destruct (mkdir q d) as [r1 d1] eqn:M.
    destruct (mkdir_step _ _ _ _ M) as [(-> & (Sw & Sl) & N & P & _)|(e & -> & -> & _)].
    + apply IH in H; [assumption|].
      intros p z K. rewrite Sl in *. destruct (same q (p ++ [z])) eqn:X.
      * apply same_true in X. subst q. rewrite parent_app in P.
        destruct (same (p ++ [z]) p); [reflexivity|assumption].
      * pose proof (W _ _ K). destruct (same q p); [reflexivity|assumption].
    + destruct e; try (injection H as <- <-; assumption).
      destruct (negb (is_dir d q)); [injection H as <- <-; assumption|]. eapply IH; eassumption.
Qed.

Lemma copies_sound : forall top here l d r d', each (copy_one top here) l d = (r, d') -> sound d -> sound d'.
Proof.
  intros top here l. induction l as [|c l IH]; intros d r d' H W.
  - cbn in H. injection H as <- <-. assumption.
  - cbn [each] in H. unfold andthen in H. destruct (copy_one top here c d) as [r1 d1] eqn:C.
    unfold copy_one in C. pose proof (copy2_step _ _ _ _ _ C) as S. cbv zeta in S.
    match type of S with context [set_at d ?x _ d1] => set (q := x) in * end.
    destruct S as [(data & -> & Src & (Sw & Sl) & _ & K & P)|(e & -> & ->)].
    + eapply IH; [eassumption|].
      intros p z L. rewrite Sl in *. destruct (same q (p ++ [z])) eqn:X.
      * apply same_true in X. rewrite X in *. rewrite parent_app in P.
        destruct (same (p ++ [z]) p) eqn:Y; [|assumption].
        apply same_true in Y. rewrite <- Y in P at 1. contradiction.
      * pose proof (W _ _ L) as D. destruct (same q p) eqn:Y; [|assumption].
        apply same_true in Y. rewrite Y in K. contradiction.
    + injection H as <- <-. assumption.
Qed.

Lemma install_sound : forall prefix here d r d', install prefix here d = (r, d') -> sound d -> sound d'.
Proof.
  intros prefix here d r d' H W. rewrite install_steps in H.
  destruct (create_dirs _ d) as [[z|e] d1] eqn:C; apply create_dirs_sound in C; try assumption.
  - destruct (Z.eqb z 0); [|injection H as <- <-; assumption].
    apply or_exit_disk in H. destruct H as (r' & H). eapply copies_sound; eassumption.
  - injection H as <- <-. assumption.
Qed.

Lemma removals_all_files : forall s, our_file s -> In (Rm s) removals.
Proof.
  intros s Hs. apply our_file_in in Hs.
  assert (A : forallb (fun s => existsb (fun x => match x with Rm s' => same s' s | _ => false end) removals) all_files = true)
    by (vm_compute; reflexivity).
  rewrite forallb_forall in A. specialize (A s Hs). apply existsb_exists in A.
  destruct A as (x & X & E). destruct x; [|discriminate]. apply same_true in E. now subst.
Qed.

Lemma removals_all_dirs : forall s, our_directory s -> In (Rmdir s) removals.
Proof.
  intros s Hs. apply our_directory_in in Hs.
  assert (A : forallb (fun s => existsb (fun x => match x with Rmdir s' => same s' s | _ => false end) removals) all_dirs = true)
    by (vm_compute; reflexivity).
  rewrite forallb_forall in A. specialize (A s Hs). apply existsb_exists in A.
  destruct A as (x & X & E). destruct x; [discriminate|]. apply same_true in E. now subst.
Qed.

Lemma uninstall_done : forall prefix d d', sound d -> uninstall prefix d = (Returned tt, d') ->
  (forall s data, our_file s -> look d' (prefix ++ s) <> Some (File data)) /\
  (forall s, our_directory s -> look d' (prefix ++ s) = Some Dir -> occupied d' (prefix ++ s)).
Proof.
  intros prefix d d' W H. pose proof (uninstall_sound _ _ _ _ H W) as W'.
  rewrite uninstall_steps in H. apply or_exit_returned in H.
  assert (O : in_order removals = true) by (vm_compute; reflexivity).
  pose proof (removals_done _ _ _ _ removal_named O H) as G. split.
  - intros s data Hs F. pose proof (G _ (removals_all_files s Hs)) as K. cbn [gone] in K.
    assert (N : s <> []) by (apply (removal_named (Rm s)); now apply removals_all_files).
    destruct (exists_last N) as (q & x & ->). unfold parent in K. rewrite removelast_last in K.
    apply K; [|now exists data]. apply (W' (prefix ++ q) x). rewrite <- app_assoc. congruence.
  - intros s Hs D. exact (G _ (removals_all_dirs s Hs) D).
Qed.

(** * The way back *)

Section Back.
Variables (prefix : path) (base inst : disk).
Hypothesis Hsound : sound base.
Hypothesis Hfree : forall s, our_file s -> look base (prefix ++ s) = None.
Hypothesis Hdirs : forall s, our_directory s ->
  look base (prefix ++ s) = None \/ (look base (prefix ++ s) = Some Dir /\ occupied base (prefix ++ s)).
Hypothesis Iother : forall p, ~ ours prefix p -> look inst p = look base p.
Hypothesis Ifile : forall s, our_file s -> a_file (look inst (prefix ++ s)).
Hypothesis Idir : forall s, our_directory s -> look inst (prefix ++ s) = Some Dir.
Hypothesis Wfile : forall s, our_file s -> writable base (prefix ++ s) = true.
Hypothesis Wdir : forall s, our_directory s -> look base (prefix ++ s) = None -> writable base (prefix ++ s) = true.

(** Where removal has come to: what has been dealt with is as it was before
    the installation, the rest as it was after. *)
Definition midway (back : list path) (d : disk) : Prop :=
  writable d = writable base /\
  (forall p, ~ ours prefix p -> look d p = look base p) /\
  (forall s, In s back -> look d (prefix ++ s) = look base (prefix ++ s)) /\
  (forall s, our_file s \/ our_directory s -> ~ In s back -> look d (prefix ++ s) = look inst (prefix ++ s)).

(** The next removal is of something not dealt with, in a directory not dealt
    with, and everything of ours in it has been dealt with. *)
Definition next_ok (back : list path) (x : removal) : bool :=
  negb (in_paths (removed x) back) &&
  match x with
  | Rm s => in_paths s all_files && in_paths (parent s) all_dirs && negb (in_paths (parent s) back)
  | Rmdir s => in_paths s all_dirs &&
      forallb (fun q => negb (same (parent q) s) || in_paths q back) (all_files ++ all_dirs)
  end.

Fixpoint all_ok (back : list path) (l : list removal) : bool :=
  match l with
  | [] => true
  | x :: l => next_ok back x && all_ok (removed x :: back) l
  end.

Lemma midway_more : forall back d s d', midway back d -> (our_file s \/ our_directory s) ->
  (forall p, p <> prefix ++ s -> look d' p = look d p) -> writable d' = writable d ->
  look d' (prefix ++ s) = look base (prefix ++ s) -> midway (s :: back) d'.
Proof.
  intros back d s d' (Mw & Mo & Mb & Mi) O L Wd E. repeat split.
  - congruence.
  - intros p K. rewrite L; [now apply Mo|]. intros ->. apply K. exists s. auto.
  - intros q [<-|Hq]; [assumption|].
    destruct (list_eq_dec string_dec q s) as [->|N]; [assumption|].
    rewrite L; [now apply Mb|]. intro F. apply app_inv_head in F. contradiction.
  - intros q Oq K. rewrite L; [apply Mi; [assumption|]|].
    + intro F. apply K. now right.
    + intro F. apply app_inv_head in F. subst q. apply K. now left.
Qed.

Lemma step_back : forall back d x, midway back d -> next_ok back x = true ->
  exists d', remove_one prefix x d = (Returned tt, d') /\ midway (removed x :: back) d'.
Proof.
  intros back d x M H. pose proof M as (Mw & Mo & Mb & Mi).
  unfold next_ok in H. apply andb_true_iff in H. destruct H as (H1 & H).
  apply negb_true_iff in H1.
  assert (Nb : ~ In (removed x) back) by (intro F; apply in_paths_true in F; congruence).
  destruct x as [s|s]; cbn [removed remove_one] in *.
  - apply andb_true_iff in H. destruct H as (H & H3). apply andb_true_iff in H. destruct H as (H & H2).
    apply in_paths_true in H, H2. apply our_file_in in H. apply our_directory_in in H2.
    apply negb_true_iff in H3.
    assert (Np : ~ In (parent s) back) by (intro F; apply in_paths_true in F; congruence).
    assert (Ns : s <> []).
    { intros ->. destruct (removal_named (Rm [])); [now apply removals_all_files|reflexivity]. }
    destruct (Ifile s H) as (data & F).
    assert (F' : look d (prefix ++ s) = Some (File data)) by (rewrite Mi; auto).
    assert (P' : look d (prefix ++ parent s) = Some Dir) by (rewrite Mi by auto; now apply Idir).
    exists (drop d (prefix ++ s)). split.
    + unfold rm_f. rewrite parent_below by assumption.
      assert (A : is_dir d (prefix ++ parent s) = true) by now apply is_dir_true.
      assert (B : is_file d (prefix ++ s) = true) by (apply is_file_true; eauto).
      rewrite A, B. cbn [andb]. unfold unlink. rewrite F', Mw, Wfile by assumption. reflexivity.
    + destruct (drop_set d (prefix ++ s) (app_not_nil _ _ Ns)) as (Sw & Sl).
      apply (midway_more back d); auto.
      * intros p K. rewrite Sl. destruct (same (prefix ++ s) p) eqn:X; [|reflexivity].
        apply same_true in X. congruence.
      * rewrite Sl, same_refl. symmetry. now apply Hfree.
  - apply andb_true_iff in H. destruct H as (H & H2). apply in_paths_true in H. apply our_directory_in in H.
    assert (Ns : s <> []).
    { intros ->. destruct (removal_named (Rmdir [])); [now apply removals_all_dirs|reflexivity]. }
    assert (D' : look d (prefix ++ s) = Some Dir) by (rewrite Mi by auto; now apply Idir).
    assert (A : is_dir d (prefix ++ s) = true) by now apply is_dir_true.
    unfold rmdir_if_empty. rewrite A.
    destruct (Hdirs s H) as [E|(E & (y & Y))].
    + assert (Em : is_empty d (prefix ++ s) = true).
      { apply is_empty_true. intro z.
        assert (B0 : look base ((prefix ++ s) ++ [z]) = None).
        { destruct (look base ((prefix ++ s) ++ [z])) eqn:L; [|reflexivity].
          assert (look base (prefix ++ s) = Some Dir); [|congruence]. apply (Hsound _ z). congruence. }
        destruct (ours_dec prefix ((prefix ++ s) ++ [z])) as [(q & Q & O)|O]; [|now rewrite Mo].
        rewrite <- app_assoc in Q. apply app_inv_head in Q.
        assert (Iq : In q (all_files ++ all_dirs)).
        { apply in_or_app. destruct O; [left; now apply our_file_in|right; now apply our_directory_in]. }
        rewrite forallb_forall in H2. specialize (H2 q Iq). rewrite <- Q in H2 at 1.
        rewrite parent_app, same_refl in H2. cbn in H2. apply in_paths_true in H2.
        rewrite <- app_assoc, Q, Mb by assumption. rewrite <- app_assoc, Q in B0. assumption. }
      rewrite Em. unfold rmdir. rewrite D', Em. cbn [negb].
      rewrite Mw, Wdir by assumption. eexists. split; [reflexivity|].
      destruct (drop_set d (prefix ++ s) (app_not_nil _ _ Ns)) as (Sw & Sl).
      apply (midway_more back d); auto.
      * intros p K. rewrite Sl. destruct (same (prefix ++ s) p) eqn:X; [|reflexivity].
        apply same_true in X. congruence.
      * rewrite Sl, same_refl. now symmetry.
    + assert (Em : is_empty d (prefix ++ s) = false).
      { destruct (is_empty d (prefix ++ s)) eqn:Em; [|reflexivity]. exfalso.
        rewrite is_empty_true in Em. specialize (Em y).
        destruct (ours_dec prefix ((prefix ++ s) ++ [y])) as [(q & Q & O)|O].
        - rewrite Q in *. destruct O as [O|O].
          + rewrite Hfree in Y by assumption. congruence.
          + destruct (in_paths q back) eqn:Bq.
            * apply in_paths_true in Bq. rewrite Mb in Em by assumption. congruence.
            * rewrite Mi in Em; [|now right|intro F; apply in_paths_true in F; congruence].
              rewrite Idir in Em by assumption. discriminate.
        - rewrite Mo in Em by assumption. congruence. }
      rewrite Em. exists d. split; [reflexivity|].
      apply (midway_more back d); auto. congruence.
Qed.

Lemma steps_back : forall l back d, midway back d -> all_ok back l = true ->
  exists d', each (remove_one prefix) l d = (Returned tt, d') /\ midway (rev (map removed l) ++ back) d'.
Proof.
  induction l as [|x l IH]; intros back d M H.
  - exists d. split; [reflexivity|]. exact M.
  - cbn [all_ok] in H. apply andb_true_iff in H. destruct H as (H & H').
    destruct (step_back back d x M H) as (d1 & E & M1).
    destruct (IH _ _ M1 H') as (d' & E' & M').
    exists d'. split.
    + cbn [each]. unfold andthen. rewrite E. exact E'.
    + cbn [map rev]. rewrite <- app_assoc. exact M'.
Qed.

Lemma all_back : writable inst = writable base ->
  exists d', uninstall prefix inst = (Returned tt, d') /\
             writable d' = writable base /\ forall p, look d' p = look base p.
Proof.
  intro Ww. destruct (steps_back removals [] inst) as (d' & E & (Mw & Mo & Mb & _)).
  - repeat split; auto.
  - vm_compute. reflexivity.
  - exists d'. split; [|split].
    + rewrite uninstall_steps. now apply or_exit_of_returned.
    + assumption.
    + intro p. destruct (ours_dec prefix p) as [(s & -> & O)|O]; [|now apply Mo].
      apply Mb. rewrite app_nil_r, <- in_rev.
      destruct O as [O|O].
      * apply (in_map removed _ (Rm s)). now apply removals_all_files.
      * apply (in_map removed _ (Rmdir s)). now apply removals_all_dirs.
Qed.

End Back.

Lemma install_uninstall : forall prefix here d d1,
  sound d ->
  (forall s, our_file s -> look d (prefix ++ s) = None) ->
  (forall s, our_directory s -> look d (prefix ++ s) <> Some Dir \/ occupied d (prefix ++ s)) ->
  install prefix here d = (Returned tt, d1) ->
  exists d2, uninstall prefix d1 = (Returned tt, d2) /\
             writable d2 = writable d /\ forall p, look d2 p = look d p.
Proof.
  intros prefix here d d1 S Hf Hd H.
  destruct (install_done _ _ _ _ H) as (A & B & C & D & E & F).
  apply (all_back prefix d d1); auto.
  - intros s Hs. destruct (F s Hs) as [(X & _)|X]; [now left|right]. split; [assumption|].
    destruct (Hd s Hs); [contradiction|assumption].
  - intros s Hs. rewrite B by assumption. now apply E.
  - intros s Hs. now apply E.
  - intros s Hs X. destruct (F s Hs) as [(_ & Y)|Y]; [assumption|congruence].
Qed.
