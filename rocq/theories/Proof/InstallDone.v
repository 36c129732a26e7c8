(** What the scripts for Windows install, remove, gather and clean. *)
From Coq Require Import ZArith List Bool String Ascii Lia.
From Verif Require Import Model.Make Spec.Install Proof.InstallFacts Proof.InstallRun.
Import ListNotations.
Open Scope string_scope.
Open Scope list_scope.

Lemma or_exit_returned : forall m d d', or_exit m d = (Returned tt, d') -> m d = (Returned tt, d').
Proof.
  intros m d d' H. unfold or_exit in H. destruct (m d) as [[u|e] d1]; [assumption|].
  destruct e; discriminate.
Qed.

Lemma or_exit_disk : forall m d r d', or_exit m d = (r, d') -> exists r', m d = (r', d').
Proof.
  intros m d r d' H. unfold or_exit in H. destruct (m d) as [[u|e] d1].
  - injection H as <- <-. eauto.
  - destruct e; injection H as <- <-; eauto.
Qed.

Lemma or_exit_of_returned : forall m d d', m d = (Returned tt, d') -> or_exit m d = (Returned tt, d').
Proof. intros m d d' H. unfold or_exit. now rewrite H. Qed.

Definition in_paths (s : path) (l : list path) : bool := existsb (same s) l.

Lemma in_paths_true : forall s l, in_paths s l = true <-> In s l.
Proof.
  intros s l. unfold in_paths. rewrite existsb_exists. split.
  - intros (x & A & B). apply same_true in B. now subst.
  - intro H. exists s. split; [assumption|apply same_refl].
Qed.

Lemma in_below : forall top p (l : list path),
  existsb (same p) (map (fun s => top ++ s) l) = true <->
  exists s, p = top ++ s /\ In s l.
Proof.
  intros top p l. rewrite existsb_exists. split.
  - intros (x & A & B). apply same_true in B. subst x.
    apply in_map_iff in A. destruct A as (s & <- & A). eauto.
  - intros (s & -> & A). exists (top ++ s). split; [now apply in_map|apply same_refl].
Qed.

Lemma ours_dec : forall top p, ours top p \/ ~ ours top p.
Proof.
  intros top p.
  destruct (existsb (same p) (map (fun s => top ++ s) (all_files ++ all_dirs))) eqn:E.
  - left. apply in_below in E. destruct E as (s & -> & E). exists s. split; [reflexivity|].
    apply in_app_or in E. destruct E; [left; now apply our_file_in|right; now apply our_directory_in].
  - right. intros (s & -> & H).
    assert (existsb (same (top ++ s)) (map (fun s => top ++ s) (all_files ++ all_dirs)) = true); [|congruence].
    apply in_below. exists s. split; [reflexivity|]. apply in_or_app.
    destruct H; [left; now apply our_file_in|right; now apply our_directory_in].
Qed.

(** ** The lists are as the tables say *)

Lemma dirs_in_order_all : forall s, In s dirs_in_order <-> our_directory s.
Proof.
  intro s. rewrite our_directory_in. rewrite <- !in_paths_true.
  assert (A : forallb (fun s => in_paths s all_dirs) dirs_in_order = true) by (vm_compute; reflexivity).
  assert (B : forallb (fun s => in_paths s dirs_in_order) all_dirs = true) by (vm_compute; reflexivity).
  rewrite forallb_forall in A, B. split; intro H; apply in_paths_true in H; auto.
Qed.

Lemma copies_separate : separate install_copies = true.
Proof. vm_compute. reflexivity. Qed.

Lemma copies_named : forall c, In c install_copies -> fst c <> [].
Proof.
  intros c H. assert (A : forallb (fun c : path * path => match fst c with [] => false | _ => true end) install_copies = true)
    by (vm_compute; reflexivity).
  rewrite forallb_forall in A. specialize (A c H). destruct (fst c); [discriminate|easy].
Qed.

Lemma copies_dirs : forall c, In c install_copies -> In (snd c) dirs_in_order.
Proof.
  intros c H. assert (A : forallb (fun c : path * path => in_paths (snd c) dirs_in_order) install_copies = true)
    by (vm_compute; reflexivity).
  rewrite forallb_forall in A. apply in_paths_true. now apply A.
Qed.

Lemma copies_targets : forall c, In c install_copies -> our_file (target c).
Proof.
  intros c H. assert (A : forallb (fun c : path * path => in_paths (target c) all_files) install_copies = true)
    by (vm_compute; reflexivity).
  rewrite forallb_forall in A. apply our_file_in, in_paths_true. now apply A.
Qed.

(** What is installed at a place: the file that belongs there, but for one. *)
Definition comes_from (s : path) : path :=
  match s with
  | ["include"; "ansak"; h] => ["interface"; h]
  | ["lib"; "Win32"; "MinSizeRel"; f] => ["build"; "x64"; "MinSizeRel"; f]
  | "lib" :: r => "build" :: r
  | _ => []
  end.

Lemma source_of_app : forall top l s,
  source_of top l (top ++ s) = source_of [] l s.
Proof.
  intros top l s. induction l as [|c l IH]; [reflexivity|].
  cbn [source_of]. rewrite IH. now rewrite same_app.
Qed.

Lemma source_of_files : forall top s, our_file s ->
  source_of top install_copies (top ++ s) = Some (comes_from s).
Proof.
  intros top s H. rewrite source_of_app. apply our_file_in in H.
  assert (A : forallb (fun s => match source_of [] install_copies s with
                                | Some t => same t (comes_from s) | None => false end) all_files = true)
    by (vm_compute; reflexivity).
  rewrite forallb_forall in A. specialize (A s H).
  destruct (source_of [] install_copies s) as [t|]; [|discriminate].
  apply same_true in A. now subst.
Qed.

Lemma source_of_others : forall top p, (forall s, p = top ++ s -> ~ our_file s) ->
  source_of top install_copies p = None.
Proof.
  intros top p H.
  assert (A : forall l, (forall c, In c l -> our_file (target c)) -> source_of top l p = None).
  { induction l as [|c l IH]; intro K; [reflexivity|].
    cbn [source_of]. rewrite IH by (intros; apply K; now right).
    destruct (same (top ++ target c) p) eqn:E; [|reflexivity].
    apply same_true in E. exfalso. apply (H (target c)); [now symmetry|]. apply K. now left. }
  apply A. exact copies_targets.
Qed.

Lemma file_not_directory : forall s, our_file s -> our_directory s -> False.
Proof.
  intros s A B. apply our_file_in in A. apply our_directory_in in B.
  assert (K : forallb (fun s => negb (in_paths s all_dirs)) all_files = true) by (vm_compute; reflexivity).
  rewrite forallb_forall in K. specialize (K s A). apply negb_true_iff in K.
  apply in_paths_true in B. congruence.
Qed.

(** Sources are not places of the installation. *)
Lemma source_apart : forall top here t s, belongs t s ->
  forall s', our_file s' \/ our_directory s' -> top ++ s' <> here ++ t.
Proof.
  intros top here t s B s' H E.
  assert (T : In t (map comes_from all_files ++ [built "Win32" "MinSizeRel" library])).
  { destruct B; unfold architectures, configurations, headers, debugged in *; in_list; cbv; tauto. }
  assert (K : forallb (fun t => forallb (fun s' => ends_differ s' t) (all_files ++ all_dirs))
    (map comes_from all_files ++ [built "Win32" "MinSizeRel" library]) = true) by (vm_compute; reflexivity).
  rewrite forallb_forall in K. specialize (K t T). rewrite forallb_forall in K.
  assert (S : In s' (all_files ++ all_dirs)).
  { apply in_or_app. destruct H; [left; now apply our_file_in|right; now apply our_directory_in]. }
  specialize (K s' S). now apply (ends_differ_sound _ _ top here K) in E.
Qed.

Lemma comes_from_belongs : forall s, our_file s -> exists s', belongs (comes_from s) s'.
Proof.
  intros s (t & B). destruct B; unfold architectures, configurations, headers, debugged in *; in_list;
    first [ eexists; apply belongs_header; cbv; tauto
          | eexists; apply belongs_library; cbv; tauto
          | eexists; apply belongs_database; cbv; tauto ].
Qed.

(** ** What an installation that returns has done *)

Lemma install_done : forall prefix here d d', install prefix here d = (Returned tt, d') ->
  writable d' = writable d /\
  (forall s, our_file s -> look d' (prefix ++ s) = look d (here ++ comes_from s)) /\
  (forall s, our_directory s -> look d' (prefix ++ s) = Some Dir) /\
  (forall p, ~ ours prefix p -> look d' p = look d p) /\
  (forall s, our_file s -> a_file (look d (here ++ comes_from s)) /\
     writable d (prefix ++ s) = true /\ look d (prefix ++ s) <> Some Dir) /\
  (forall s, our_directory s ->
     (look d (prefix ++ s) = None /\ writable d (prefix ++ s) = true) \/ look d (prefix ++ s) = Some Dir).
Proof.
  intros prefix here d d' H. rewrite install_steps in H.
  destruct (create_dirs _ d) as [[z|e] d1] eqn:C; [|discriminate].
  destruct (Z.eqb z 0) eqn:Z0; [|discriminate]. apply Z.eqb_eq in Z0. subst z.
  apply or_exit_returned in H.
  pose proof (create_dirs_zero _ _ _ C) as (Cw & Cl & Ca).
  assert (D1 : forall s, our_directory s -> look d1 (prefix ++ s) = Some Dir).
  { intros s Hs. rewrite Cl.
    assert (E : existsb (same (prefix ++ s)) (map (fun s => prefix ++ s) dirs_in_order) = true);
      [|now rewrite E].
    apply in_below. exists s. split; [reflexivity|]. now apply dirs_in_order_all. }
  assert (N1 : forall p, (forall s, p = prefix ++ s -> ~ our_directory s) -> look d1 p = look d p).
  { intros p K. rewrite Cl.
    destruct (existsb (same p) (map (fun s => prefix ++ s) dirs_in_order)) eqn:E; [|reflexivity].
    apply in_below in E. destruct E as (s & -> & E). apply dirs_in_order_all in E. now destruct (K s eq_refl). }
  apply copies_done in H; [|exact copies_separate|exact copies_named|].
  2: { intros c Hc. apply D1. apply dirs_in_order_all. now apply copies_dirs. }
  destruct H as (Hw & Hl & Hf).
  assert (S1 : forall s, our_file s -> look d1 (here ++ comes_from s) = look d (here ++ comes_from s)).
  { intros s Hs. apply N1. intros s' E Hd. destruct (comes_from_belongs s Hs) as (s2 & B).
    exact (source_apart prefix here _ _ B s' (or_intror Hd) (eq_sym E)). }
  assert (L : forall s, our_file s -> exists c, In c install_copies /\ target c = s /\ fst c = comes_from s).
  { intros s Hs. apply our_file_in in Hs.
    assert (A : forallb (fun s => existsb (fun c : path * path => same (target c) s && same (fst c) (comes_from s))
      install_copies) all_files = true) by (vm_compute; reflexivity).
    rewrite forallb_forall in A. specialize (A s Hs). apply existsb_exists in A.
    destruct A as (c & A & B). apply andb_true_iff in B. destruct B as (B1 & B2).
    apply same_true in B1, B2. exists c. repeat split; assumption. }
  repeat split.
  - congruence.
  - intros s Hs. rewrite Hl, source_of_files by assumption. now apply S1.
  - intros s Hs. rewrite Hl, source_of_others; [now apply D1|].
    intros s' E Hf'. apply app_inv_head in E. subst s'. now apply (file_not_directory s).
  - intros p K. rewrite Hl, source_of_others.
    + apply N1. intros s -> Hd. apply K. exists s. split; [reflexivity|now right].
    + intros s -> Hf'. apply K. exists s. split; [reflexivity|now left].
  - destruct (L s H) as (c & Hin & T & F). destruct (Hf c Hin) as (A & _).
    rewrite F in A. now rewrite S1 in A.
  - destruct (L s H) as (c & Hin & T & F). destruct (Hf c Hin) as (_ & A & _).
    rewrite T in A. now rewrite <- Cw.
  - destruct (L s H) as (c & Hin & T & F). destruct (Hf c Hin) as (_ & _ & A).
    rewrite T in A. rewrite N1 in A; [assumption|].
    intros s' E Hd. apply app_inv_head in E. subst s'. now apply (file_not_directory s).
  - intros s Hs. apply Ca. apply in_map. now apply dirs_in_order_all.
Qed.

(** ** Whatever comes of it *)

Lemma install_any : forall prefix here d r d', install prefix here d = (r, d') ->
  untouched_but (ours prefix) d d'.
Proof.
  intros prefix here d r d' H. rewrite install_steps in H.
  destruct (create_dirs _ d) as [[z|e] d1] eqn:C.
  - apply create_dirs_any in C. destruct C as (Cw & Cl).
    assert (C1 : untouched_but (ours prefix) d d1).
    { split; [assumption|]. intros p K. destruct (Cl p) as [E|(E & _)]; [assumption|].
      exfalso. apply K. apply in_map_iff in E. destruct E as (s & <- & E).
      exists s. split; [reflexivity|]. right. now apply dirs_in_order_all. }
    destruct (Z.eqb z 0); [|injection H as _ <-; assumption].
    apply or_exit_disk in H. destruct H as (r' & H).
    apply copies_any in H; [|exact copies_named]. destruct H as (Hw & Hl).
    destruct C1 as (C1w & C1l). split; [congruence|].
    intros p K. destruct (Hl p) as [E|(c & Hin & E)].
    + rewrite E. now apply C1l.
    + exfalso. apply K. destruct E as [->|(-> & _)]; eexists; (split; [reflexivity|]).
      * left. now apply copies_targets.
      * right. apply dirs_in_order_all. now apply copies_dirs.
  - injection H as _ <-. apply create_dirs_any in C. destruct C as (Cw & Cl).
    split; [assumption|]. intros p K. destruct (Cl p) as [E|(E & _)]; [assumption|].
    exfalso. apply K. apply in_map_iff in E. destruct E as (s & <- & E).
    exists s. split; [reflexivity|]. right. now apply dirs_in_order_all.
Qed.

(** ** When it succeeds *)

Lemma create_dirs_succeed : forall top ds d,
  look d top = Some Dir ->
  (forall s, In s ds -> s <> []) ->
  (forall s, In s ds -> look d (top ++ s) = Some Dir \/
                        (look d (top ++ s) = None /\ writable d (top ++ s) = true)) ->
  (forall l s r, ds = l ++ s :: r -> parent s = [] \/ In (parent s) l \/ look d (top ++ parent s) = Some Dir) ->
  exists d', create_dirs (map (fun s => top ++ s) ds) d = (Returned 0%Z, d').
Proof.
  intros top ds. induction ds as [|s ds IH]; intros d Ht Hn Ha Hp.
  - exists d. reflexivity.
  - cbn [map create_dirs].
    assert (P : parent (top ++ s) = top ++ parent s).
    { unfold parent. apply removelast_app. apply Hn. now left. }
    assert (Pd : look d (parent (top ++ s)) = Some Dir).
    { rewrite P. destruct (Hp [] s ds eq_refl) as [E|[E|E]].
      - rewrite E, app_nil_r. assumption.
      - destruct E.
      - assumption. }
    unfold mkdir. destruct (Ha s (or_introl eq_refl)) as [E|(E & W)]; rewrite E.
    + assert (D : is_dir d (top ++ s) = true) by now apply is_dir_true.
      rewrite D. cbn [negb]. apply IH; [assumption|intros; apply Hn; now right|intros; apply Ha; now right|].
      intros l s' r ->. destruct (Hp (s :: l) s' r eq_refl) as [F|[[F|F]|F]]; auto.
      rewrite <- F. auto.
    + assert (D : is_dir d (parent (top ++ s)) = true) by now apply is_dir_true.
      rewrite D, W. cbn [negb].
      assert (N : top ++ s <> []).
      { intro F. apply (Hn s); [now left|]. destruct top; [assumption|discriminate]. }
      apply IH.
      * rewrite look_put by assumption. destruct (same (top ++ s) top); [reflexivity|assumption].
      * intros; apply Hn; now right.
      * intros s' Hin. rewrite look_put by assumption. cbn [writable put].
        destruct (same (top ++ s) (top ++ s')); [now left|]. apply Ha. now right.
      * intros l s' r ->. destruct (Hp (s :: l) s' r eq_refl) as [F|[[F|F]|F]]; auto.
        -- right. right. rewrite <- F, look_put, same_refl by assumption. reflexivity.
        -- right. right. rewrite look_put by assumption.
           destruct (same (top ++ s) (top ++ parent s')); [reflexivity|assumption].
Qed.

Lemma dirs_parents : forall l s r, dirs_in_order = l ++ s :: r -> parent s = [] \/ In (parent s) l.
Proof.
  assert (K : forall ds seen,
    (fix ok seen ds := match ds with
      | [] => true
      | s :: ds => (match parent s with [] => true | _ => in_paths (parent s) seen end) && ok (seen ++ [s]) ds
      end) seen ds = true ->
    forall l s r, ds = l ++ s :: r -> parent s = [] \/ In (parent s) (seen ++ l)).
  { induction ds as [|s0 ds IH]; intros seen H l s r E; [destruct l; discriminate|].
    apply andb_true_iff in H. destruct H as (H1 & H2). destruct l as [|a l]; injection E as -> E.
    - rewrite app_nil_r. destruct (parent s); [now left|]. right. now apply in_paths_true.
    - specialize (IH _ H2 l s r E). rewrite <- app_assoc in IH. exact IH. }
  intros l s r E. apply (K dirs_in_order [] eq_refl l s r E).
Qed.

Lemma install_succeeds : forall prefix here d,
  look d prefix = Some Dir ->
  (forall s, our_directory s -> look d (prefix ++ s) = Some Dir \/
     (look d (prefix ++ s) = None /\ writable d (prefix ++ s) = true)) ->
  (forall s, our_file s -> look d (prefix ++ s) <> Some Dir /\ writable d (prefix ++ s) = true) ->
  (forall t s, belongs t s -> exists data, look d (here ++ t) = Some (File data)) ->
  exists d', install prefix here d = (Returned tt, d').
Proof.
  intros prefix here d Hp Hd Hf Hs.
  destruct (create_dirs_succeed prefix dirs_in_order d Hp) as (d1 & C).
  { intros s Hin. assert (A : forallb (fun s : path => match s with [] => false | _ => true end) dirs_in_order = true)
      by (vm_compute; reflexivity).
    rewrite forallb_forall in A. specialize (A s Hin). destruct s; [discriminate|easy]. }
  { intros s Hin. apply Hd. now apply dirs_in_order_all. }
  { intros l s r E. destruct (dirs_parents l s r E); auto. }
  rewrite install_steps, C. cbn [Z.eqb].
  pose proof (create_dirs_zero _ _ _ C) as (Cw & Cl & _).
  assert (D1 : forall s, our_directory s -> look d1 (prefix ++ s) = Some Dir).
  { intros s Hs'. rewrite Cl.
    assert (E : existsb (same (prefix ++ s)) (map (fun s => prefix ++ s) dirs_in_order) = true);
      [|now rewrite E].
    apply in_below. exists s. split; [reflexivity|]. now apply dirs_in_order_all. }
  assert (N1 : forall p, (forall s, p = prefix ++ s -> ~ our_directory s) -> look d1 p = look d p).
  { intros p K. rewrite Cl.
    destruct (existsb (same p) (map (fun s => prefix ++ s) dirs_in_order)) eqn:E; [|reflexivity].
    apply in_below in E. destruct E as (s & -> & E). apply dirs_in_order_all in E. now destruct (K s eq_refl). }
  destruct (copies_succeed prefix here install_copies d1) as (d' & H).
  - exact copies_separate.
  - exact copies_named.
  - intros c Hc. apply D1. apply dirs_in_order_all. now apply copies_dirs.
  - intros c Hc.
    assert (B : exists s, belongs (fst c) s).
    { assert (A : forallb (fun c : path * path => existsb (same (fst c)) (map comes_from all_files)) install_copies = true)
        by (vm_compute; reflexivity).
      rewrite forallb_forall in A. specialize (A c Hc). apply existsb_exists in A.
      destruct A as (t & A & E). apply same_true in E. rewrite E. apply in_map_iff in A.
      destruct A as (s & <- & A). apply comes_from_belongs. now apply our_file_in. }
    destruct B as (s & B). split; [|split].
    + rewrite N1; [exact (Hs _ _ B)|]. intros s' E Hd'.
      exact (source_apart prefix here _ _ B s' (or_intror Hd') (eq_sym E)).
    + rewrite Cw. apply Hf. now apply copies_targets.
    + rewrite N1; [apply Hf; now apply copies_targets|]. intros s' E Hd'.
      apply app_inv_head in E. subst s'. apply (file_not_directory (target c)); [now apply copies_targets|assumption].
  - exists d'. now apply or_exit_of_returned.
Qed.
