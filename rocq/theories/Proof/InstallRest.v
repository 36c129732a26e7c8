(** What [package] gathers and [clean] deletes; the order of targets, the
    version and the compiler. *)
From Coq Require Import ZArith List Bool String Ascii Lia.
From Coq Require Import Numbers.DecimalString Numbers.DecimalZ.
From Verif Require Import Model.Make Spec.Install.
From Verif Require Import Proof.InstallFacts Proof.InstallRun Proof.InstallDone.
From Verif Require Import Proof.InstallUndo Proof.InstallGather.
Import ListNotations.
Open Scope string_scope.
Open Scope list_scope.

(** * Gathering *)

(** Every place a copy may read, and every place it may write. *)
Definition may_read (c : path * option path * path) : list path :=
  fst (fst c) :: match snd (fst c) with Some o => [o] | None => [] end.

Definition may_write (c : path * option path * path) : list path :=
  snd c :: map (fun t => snd c ++ [basename t]) (may_read c).

Definition apart (l : list (path * option path * path)) : bool :=
  forallb (fun c => forallb (fun t => forallb (fun c' => forallb (fun w => ends_differ w t) (may_write c')) l)
    (may_read c)) l.

Lemma pick_reads : forall here d c, In (fst (pick here d c)) (may_read c).
Proof.
  intros here d [[t [o|]] s]; unfold pick, may_read; cbn [fst snd].
  - destruct (is_file d (here ++ t)); [now left|now right; left].
  - now left.
Qed.

Lemma picks_resolved : forall top here l0 l d, apart l0 = true ->
  (forall c, In c l -> In c l0) -> (forall c t, In c l0 -> In t (may_read c) -> t <> []) ->
  forall d0, (forall c t, In c l0 -> In t (may_read c) -> look d (here ++ t) = look d0 (here ++ t)) ->
  each (copy_pick top here) l d = each (copy_one top here) (map (pick here d0) l) d.
Proof.
  intros top here l0 l. induction l as [|c l IH]; intros d A I N d0 S; [reflexivity|].
  cbn [map each]. unfold copy_pick at 1. unfold andthen.
  assert (P : pick here d c = pick here d0 c).
  { unfold pick. destruct (snd (fst c)) as [o|] eqn:E; [|reflexivity].
    unfold is_file. rewrite (S c (fst (fst c))); [reflexivity|apply I; now left|now left]. }
  rewrite P. destruct (copy_one top here (pick here d0 c) d) as [[u|e] d1] eqn:C; [|reflexivity].
  apply IH; [assumption|intros; apply I; now right|assumption|].
  intros c' t Hc Ht. rewrite <- (S c' t Hc Ht).
  assert (Hone : each (copy_one top here) [pick here d0 c] d = (Returned tt, d1)).
  { cbn [each]. unfold andthen. rewrite C. reflexivity. }
  apply copies_any in Hone.
  - destruct Hone as (_ & L). destruct (L (here ++ t)) as [E|(c2 & [<-|[]] & E)]; [assumption|].
    exfalso. unfold apart in A. rewrite forallb_forall in A. specialize (A c' Hc).
    rewrite forallb_forall in A. specialize (A t Ht). rewrite forallb_forall in A.
    specialize (A c (I c (or_introl eq_refl))). rewrite forallb_forall in A.
    destruct E as [E|(E & _)].
    + assert (W : In (target (pick here d0 c)) (may_write c)).
      { right. unfold target. cbn [snd pick].
        apply (in_map (fun t => snd c ++ [basename t])). apply pick_reads. }
      specialize (A _ W). symmetry in E. now apply (ends_differ_sound _ _ top here A) in E.
    + specialize (A (snd c) (or_introl eq_refl)). symmetry in E.
      now apply (ends_differ_sound _ _ top here A) in E.
  - intros c2 [<-|[]]. apply (N c); [apply I; now left|apply pick_reads].
Qed.

Definition gathered_from (here : path) (d : disk) (s : path) : path :=
  match s with
  | ["lib"; a; "RelWithDebInfo"; "ansakString.pdb"] =>
      if is_file d (here ++ built a "RelWithDebInfo" database) then built a "RelWithDebInfo" database
      else spare a
  | "lib" :: r => "build" :: r
  | ["include"; "ansak"; h] => ["interface"; h]
  | _ => []
  end.

Definition read_by_gather : list path := flat_map may_read gather_picks.

Lemma gather_source_apart : forall top here t s', In t read_by_gather ->
  our_file s' \/ our_directory s' -> top ++ s' <> here ++ t.
Proof.
  intros top here t s' T H E.
  assert (K : forallb (fun t => forallb (fun s' => ends_differ s' t) (all_files ++ all_dirs)) read_by_gather = true)
    by (vm_compute; reflexivity).
  rewrite forallb_forall in K. specialize (K t T). rewrite forallb_forall in K.
  assert (S : In s' (all_files ++ all_dirs)).
  { apply in_or_app. destruct H; [left; now apply our_file_in|right; now apply our_directory_in]. }
  specialize (K s' S). now apply (ends_differ_sound _ _ top here K) in E.
Qed.

(** The four lists there can be. *)
Definition gather_copies (w x : bool) : list (path * path) :=
  map (fun c : path * option path * path =>
    (match snd (fst c) with
     | None => fst (fst c)
     | Some o => if same o (spare "Win32") then (if w then fst (fst c) else o)
                 else (if x then fst (fst c) else o)
     end, snd c)) gather_picks.

Lemma gather_copies_pick : forall here d,
  map (pick here d) gather_picks =
  gather_copies (is_file d (here ++ built "Win32" "RelWithDebInfo" database))
                (is_file d (here ++ built "x64" "RelWithDebInfo" database)).
Proof. reflexivity. Qed.

Definition from_of (w x : bool) (s : path) : path :=
  match s with
  | ["lib"; a; "RelWithDebInfo"; "ansakString.pdb"] =>
      if (if String.eqb a "Win32" then w else x) then built a "RelWithDebInfo" database else spare a
  | "lib" :: r => "build" :: r
  | ["include"; "ansak"; h] => ["interface"; h]
  | _ => []
  end.

Lemma from_of_gathered : forall here d s, our_file s ->
  gathered_from here d s =
  from_of (is_file d (here ++ built "Win32" "RelWithDebInfo" database))
          (is_file d (here ++ built "x64" "RelWithDebInfo" database)) s.
Proof.
  intros here d s H. apply our_file_in in H. cbv in H.
  repeat (destruct H as [<-|H]); try (destruct H; fail); reflexivity.
Qed.

Lemma gather_checks : forall w x,
  let l := gather_copies w x in
  separate l = true /\
  forallb (fun c : path * path => match fst c with [] => false | _ => true end) l = true /\
  forallb (fun c : path * path => in_paths (snd c) all_dirs) l = true /\
  forallb (fun c : path * path => in_paths (target c) all_files) l = true /\
  forallb (fun c : path * path => in_paths (fst c) read_by_gather) l = true /\
  forallb (fun s => match source_of [] l s with Some t => same t (from_of w x s) | None => false end) all_files = true /\
  forallb (fun s => existsb (fun c : path * path => same (target c) s && same (fst c) (from_of w x s)) l) all_files = true.
Proof. intros [|] [|]; vm_compute; repeat split. Qed.

Lemma source_of_none : forall top l p,
  (forall c, In c l -> our_file (target c)) ->
  (forall s, p = top ++ s -> ~ our_file s) -> source_of top l p = None.
Proof.
  intros top l p K H. induction l as [|c l IH]; [reflexivity|].
  cbn [source_of]. rewrite IH by (intros; apply K; now right).
  destruct (same (top ++ target c) p) eqn:E; [|reflexivity].
  apply same_true in E. exfalso. apply (H (target c)); [now symmetry|]. apply K. now left.
Qed.

Lemma gather_done : forall here d d', gather here d = (Returned tt, d') ->
  writable d' = writable d /\
  (forall s, our_file s -> a_file (look d (here ++ gathered_from here d s)) /\
     look d' (nsis_root here ++ s) = look d (here ++ gathered_from here d s)) /\
  (forall s, s = [] \/ our_directory s -> look d' (nsis_root here ++ s) = Some Dir) /\
  (forall p, ~ ours (nsis_root here) p -> p <> nsis_root here -> look d' p = look d p).
Proof.
  intros here d d' H. rewrite gather_steps in H.
  set (top := nsis_root here) in *.
  destruct (create_dirs _ d) as [[z|e] d1] eqn:C; [|discriminate].
  destruct (Z.eqb z 0) eqn:Z0; [|discriminate]. apply Z.eqb_eq in Z0. subst z.
  pose proof (create_dirs_zero _ _ _ C) as (Cw & Cl & _).
  assert (D1 : forall s, s = [] \/ our_directory s -> look d1 (top ++ s) = Some Dir).
  { intros s Hs. rewrite Cl.
    assert (E : existsb (same (top ++ s)) (map (fun s => top ++ s) ([] :: dirs_in_order)) = true);
      [|now rewrite E].
    apply in_below. exists s. split; [reflexivity|].
    destruct Hs as [->|Hs]; [now left|right]. now apply dirs_in_order_all. }
  assert (N1 : forall p, p <> top -> (forall s, p = top ++ s -> ~ our_directory s) -> look d1 p = look d p).
  { intros p T K. rewrite Cl.
    destruct (existsb (same p) (map (fun s => top ++ s) ([] :: dirs_in_order))) eqn:E; [|reflexivity].
    apply in_below in E. destruct E as (s & -> & [<-|E]); [rewrite app_nil_r in T; contradiction|].
    apply dirs_in_order_all in E. now destruct (K s eq_refl). }
  assert (R1 : forall t, In t read_by_gather -> look d1 (here ++ t) = look d (here ++ t)).
  { intros t Ht. apply N1.
    - intro E. unfold top, nsis_root in E. apply app_inv_head in E. subst t.
      assert (K : in_paths ["build"; "nsis"] read_by_gather = true) by now apply in_paths_true.
      vm_compute in K. discriminate.
    - intros s' E Hd. exact (gather_source_apart top here t s' Ht (or_intror Hd) (eq_sym E)). }
  rewrite (picks_resolved top here gather_picks gather_picks d1) with (d0 := d) in H.
  2: { vm_compute. reflexivity. }
  2: { auto. }
  2: { intros c t Hc Ht E. subst t.
       assert (K : forallb (fun c => negb (in_paths [] (may_read c))) gather_picks = true) by (vm_compute; reflexivity).
       rewrite forallb_forall in K. specialize (K c Hc). apply negb_true_iff in K.
       apply in_paths_true in Ht. congruence. }
  2: { intros c t Hc Ht. apply R1. apply in_flat_map. exists c. auto. }
  rewrite gather_copies_pick in H.
  assert (G : forall s, our_file s -> gathered_from here d s = _) by (apply from_of_gathered).
  revert H G. generalize (is_file d (here ++ built "Win32" "RelWithDebInfo" database)) as w.
  generalize (is_file d (here ++ built "x64" "RelWithDebInfo" database)) as x. intros x w H G.
  destruct (gather_checks w x) as (K1 & K2 & K3 & K4 & K5 & K6 & K7). cbv zeta in *.
  set (l := gather_copies w x) in *. rewrite forallb_forall in K2, K3, K4, K5, K6, K7.
  assert (T : forall c, In c l -> our_file (target c)).
  { intros c Hc. apply our_file_in, in_paths_true. now apply K4. }
  apply copies_done in H.
  2: assumption.
  2: { intros c Hc E. specialize (K2 c Hc). rewrite E in K2. discriminate. }
  2: { intros c Hc. apply D1. right. apply our_directory_in, in_paths_true. now apply K3. }
  destruct H as (Hw & Hl & Hf). repeat split.
  - congruence.
  - rename H into Hs. rewrite G by assumption. apply our_file_in in Hs. specialize (K7 s Hs).
    apply existsb_exists in K7. destruct K7 as (c & Hc & E). apply andb_true_iff in E. destruct E as (_ & E).
    apply same_true in E. rewrite <- E. rewrite <- R1; [now apply Hf|]. apply in_paths_true. now apply K5.
  - rename H into Hs. rewrite G by assumption. rewrite Hl, source_of_app.
    pose proof Hs as Hs'. apply our_file_in in Hs'. specialize (K6 s Hs').
    destruct (source_of [] l s) as [t|]; [|discriminate]. apply same_true in K6. subst t.
    apply R1. specialize (K7 s Hs'). apply existsb_exists in K7. destruct K7 as (c & Hc & E).
    apply andb_true_iff in E. destruct E as (_ & E). apply same_true in E. rewrite <- E.
    apply in_paths_true. now apply K5.
  - intros s Hs. rewrite Hl, (source_of_none top l (top ++ s)); [now apply D1|assumption|].
    intros s' E Hf'. apply app_inv_head in E. subst s'. destruct Hs as [->|Hs].
    + apply our_file_in in Hf'. cbv in Hf'. repeat (destruct Hf' as [Hf'|Hf']; try discriminate). assumption.
    + now apply (file_not_directory s).
  - intros p K Np. rewrite Hl, (source_of_none top l p); [|assumption|].
    + apply N1; [assumption|]. intros s -> Hd. apply K. exists s. split; [reflexivity|now right].
    + intros s -> Hf'. apply K. exists s. split; [reflexivity|now left].
Qed.

(** * Cleaning *)

Lemma below_true : forall p q, below p q = true <-> exists s, q = p ++ s.
Proof.
  induction p as [|a p IH]; intros q.
  - split; [intros _; now exists q|reflexivity].
  - destruct q as [|b q]; cbn [below].
    + split; [discriminate|]. intros (s & E). discriminate.
    + rewrite andb_true_iff, String.eqb_eq, IH. split.
      * intros (-> & s & ->). now exists s.
      * intros (s & E). injection E as -> ->. split; [reflexivity|]. now exists s.
Qed.

Lemma find_filter_below : forall p l q,
  find_in (filter (fun e : path * node => negb (below p (fst e))) l) q =
  if below p q then None else find_in l q.
Proof.
  intros p l q. induction l as [|[r n] l IH]; [now destruct (below p q)|].
  cbn [filter fst]. destruct (below p r) eqn:E; cbn [negb].
  - rewrite IH. cbn [find_in]. destruct (same r q) eqn:X; [|reflexivity].
    apply same_true in X. subst. now rewrite E.
  - cbn [find_in]. destruct (same r q) eqn:X; [|exact IH].
    apply same_true in X. subst. now rewrite E.
Qed.

Lemma sound_below : forall d p s, sound d -> look d p <> Some Dir -> s <> [] -> look d (p ++ s) = None.
Proof.
  intros d p s W N Hs. destruct (look d (p ++ s)) eqn:E; [exfalso|reflexivity].
  assert (K : forall s, s <> [] -> look d (p ++ s) <> None -> look d p = Some Dir).
  { clear - W. induction s as [|x s IH] using rev_ind; intros Hs H; [contradiction|].
    rewrite app_assoc in H. apply W in H. destruct s as [|y s].
    - now rewrite app_nil_r in H.
    - apply IH; [discriminate|congruence]. }
  apply N, (K s Hs). congruence.
Qed.

(** Whatever is at or below [v] goes. *)
Definition cleared (v : path) (d d' : disk) : Prop :=
  writable d' = writable d /\ forall p, look d' p = if below v p then None else look d p.

Lemma cleared_sound : forall v d d', v <> [] -> sound d -> cleared v d d' -> sound d'.
Proof.
  intros v d d' N W (_ & L) p x K. rewrite L in *.
  destruct (below v (p ++ [x])) eqn:E; [congruence|].
  destruct (below v p) eqn:F; [|now apply (W p x)].
  apply below_true in F. destruct F as (s & ->).
  assert (below v ((v ++ s) ++ [x]) = true); [|congruence].
  apply below_true. exists (s ++ [x]). now rewrite app_assoc.
Qed.

Lemma delete_one : forall v d d', v <> [] -> sound d ->
  (if is_dir d v then rmtree v d else rm_f v d) = (Returned tt, d') -> cleared v d d'.
Proof.
  intros v d d' N W H. destruct (is_dir d v) eqn:D.
  - unfold rmtree in H. destruct (forallb _ (entries d)); [|discriminate].
    injection H as <-. split; [reflexivity|]. intros [|a q]; cbn [look entries].
    + destruct v; [contradiction|reflexivity].
    + apply find_filter_below.
  - assert (Nd : look d v <> Some Dir) by (intro E; apply is_dir_true in E; congruence).
    assert (B : forall p, below v p = true -> p <> v -> look d p = None).
    { intros p Hp Np. apply below_true in Hp. destruct Hp as (s & ->).
      apply sound_below; [assumption|assumption|]. intros ->. now rewrite app_nil_r in Np. }
    apply rm_f_step in H. destruct H as [(_ & (Sw & Sl) & _)|[(_ & -> & K)|(K & _)]].
    + split; [assumption|]. intro p. rewrite Sl. destruct (same v p) eqn:E.
      * apply same_true in E. subst p.
        assert (F : below v v = true) by (apply below_true; exists []; now rewrite app_nil_r). now rewrite F.
      * apply same_false in E. destruct (below v p) eqn:F; [|reflexivity]. apply B; [assumption|congruence].
    + split; [reflexivity|]. intro p. destruct (below v p) eqn:F; [|reflexivity].
      destruct (list_eq_dec string_dec p v) as [->|Np]; [|now apply B].
      destruct (look d v) as [[|data]|] eqn:L; [contradiction| |reflexivity].
      exfalso. apply K; [|now exists data].
      destruct (exists_last N) as (q & x & ->). rewrite parent_app. apply (W q x). congruence.
    + discriminate.
Qed.

Lemma delete_these_done : forall vs d d', (forall v, In v vs -> v <> []) -> sound d ->
  delete_these vs d = (Returned tt, d') ->
  sound d' /\ writable d' = writable d /\
  forall p, look d' p = if existsb (fun v => below v p) vs then None else look d p.
Proof.
  induction vs as [|v vs IH]; intros d d' N W H.
  - unfold delete_these in H. cbn in H. injection H as <-. repeat split. assumption.
  - unfold delete_these in H. cbn [each] in H. unfold andthen in H.
    destruct (if is_dir d v then rmtree v d else rm_f v d) as [[[]|e] d1] eqn:E; [|discriminate].
    pose proof (delete_one v d d1 (N v (or_introl eq_refl)) W E) as Cv.
    pose proof (cleared_sound v d d1 (N v (or_introl eq_refl)) W Cv) as W1.
    destruct Cv as (Cw & Cl).
    apply (IH d1 d') in H; [|intros; apply N; now right|assumption].
    destruct H as (S & Hw & Hl). split; [assumption|]. split; [congruence|].
    intro p. rewrite Hl, Cl. cbn [existsb].
    destruct (below v p), (existsb (fun v => below v p) vs); reflexivity.
Qed.

Definition doomed (here : path) (package : string) : list path :=
  map (fun s => here ++ s)
    [["build"; "Win32"]; ["build"; "x64"]; ["build"; "nsis"]; ["build"; package];
     ["build"; "all.touch"]; ["build"; "test.touch"]].

Lemma clean_done : forall here package d d', sound d ->
  clean here true package d = (Returned tt, d') ->
  writable d' = writable d /\
  forall p, look d' p = if existsb (fun v => below v p) (doomed here package) then None else look d p.
Proof.
  intros here package d d' W H. unfold clean in H. unfold andthen at 1 in H. cbn [key_of nsis_dests find fst String.eqb] in H.
  unfold key_of, nsis_dests in H. cbn [find fst] in H.
  replace (String.eqb "nsis" "nsis") with true in H by reflexivity. cbv iota in H.
  unfold andthen in H.
  assert (N : forall s, s <> [] -> here ++ s <> []) by (intros; now apply app_not_nil).
  match type of H with match ?m with _ => _ end = _ => destruct m as [[[]|e] d1] eqn:E end; [|discriminate].
  apply delete_these_done in E; [|intros v Hv; in_list; apply N; discriminate|assumption].
  destruct E as (W1 & Ew & El).
  apply delete_these_done in H; [|intros v Hv; in_list; apply N; discriminate|assumption].
  destruct H as (_ & Hw & Hl). split; [congruence|]. intro p. rewrite Hl, El.
  unfold doomed. cbn [map existsb]. rewrite !orb_false_r.
  repeat match goal with |- context [below ?a ?b] => destruct (below a b) end; reflexivity.
Qed.

(** * The order of targets *)

Lemma valid_order_help : forall l, In "help" l -> valid_order l = ["help"].
Proof.
  intros l H. unfold valid_order.
  assert (E : existsb (fun t => String.eqb t "help") l = true).
  { apply existsb_exists. exists "help". split; [assumption|reflexivity]. }
  now rewrite E.
Qed.

Lemma valid_order_else : forall l, ~ In "help" l -> l <> [] ->
  exists first rest, valid_order l = first ++ rest /\
    (first = ["clean"] <-> In "clean" l) /\ (first = [] <-> ~ In "clean" l) /\
    rest = filter (fun t => negb (String.eqb t "clean")) l.
Proof.
  intros l H N. unfold valid_order.
  assert (E : existsb (fun t => String.eqb t "help") l = false).
  { destruct (existsb _ l) eqn:E; [|reflexivity]. apply existsb_exists in E. destruct E as (x & A & B).
    apply String.eqb_eq in B. subst. contradiction. }
  rewrite E. destruct (existsb (fun t => String.eqb t "clean") l) eqn:C.
  - assert (I : In "clean" l).
    { apply existsb_exists in C. destruct C as (x & A & B). apply String.eqb_eq in B. now subst. }
    exists ["clean"]. eexists. split; [reflexivity|]. repeat split; try easy.
  - assert (I : ~ In "clean" l).
    { intro F. assert (existsb (fun t => String.eqb t "clean") l = true); [|congruence].
      apply existsb_exists. exists "clean". split; [assumption|reflexivity]. }
    exists []. eexists. split; [|repeat split; try easy].
    cbn [app]. destruct l as [|t l]; [contradiction|]. cbn [filter].
    destruct (String.eqb t "clean") eqn:T; [|reflexivity].
    apply String.eqb_eq in T. subst. exfalso. apply I. now left.
Qed.

Lemma count_filter : forall l t, t <> "clean" ->
  count_occ string_dec (filter (fun t => negb (String.eqb t "clean")) l) t = count_occ string_dec l t.
Proof.
  intros l t N. induction l as [|a l IH]; [reflexivity|].
  cbn [filter count_occ]. destruct (String.eqb a "clean") eqn:E; cbn [negb].
  - apply String.eqb_eq in E. subst a. destruct (string_dec "clean" t); [congruence|exact IH].
  - cbn [count_occ]. now rewrite IH.
Qed.

Lemma count_filter_clean : forall l,
  count_occ string_dec (filter (fun t => negb (String.eqb t "clean")) l) "clean" = 0.
Proof.
  induction l as [|a l IH]; [reflexivity|]. cbn [filter].
  destruct (String.eqb a "clean") eqn:E; cbn [negb]; [exact IH|].
  cbn [count_occ]. destruct (string_dec a "clean") as [->|]; [discriminate|exact IH].
Qed.

Lemma order_counts : forall l, ~ In "help" l -> l <> [] ->
  (forall t, t <> "clean" -> count_occ string_dec (valid_order l) t = count_occ string_dec l t) /\
  (In "clean" l -> count_occ string_dec (valid_order l) "clean" = 1 /\ hd_error (valid_order l) = Some "clean") /\
  (~ In "clean" l -> valid_order l = l).
Proof.
  intros l H N. destruct (valid_order_else l H N) as (first & rest & -> & A & B & ->). repeat split.
  - intros t Nt. rewrite count_occ_app, count_filter by assumption.
    destruct (in_dec string_dec "clean" l) as [I|I].
    + apply A in I. subst first. cbn [count_occ]. destruct (string_dec "clean" t); [congruence|reflexivity].
    + apply B in I. subst first. reflexivity.
  - apply A in H0. subst first. rewrite count_occ_app, count_filter_clean. reflexivity.
  - apply A in H0. subst first. reflexivity.
  - intro I. pose proof I as I'. apply B in I. subst first. cbn [app].
    clear - I'. induction l as [|a l IH]; [reflexivity|]. cbn [filter].
    destruct (String.eqb a "clean") eqn:E; cbn [negb].
    + apply String.eqb_eq in E. subst. exfalso. apply I'. now left.
    + rewrite IH; [reflexivity|]. intro F. apply I'. now right.
Qed.

(** Two targets other than clean keep the order they were given in. *)
Lemma order_kept : forall l a b x y z, ~ In "help" l -> a <> "clean" -> b <> "clean" ->
  l = x ++ a :: y ++ b :: z ->
  exists x' y' z', valid_order l = x' ++ a :: y' ++ b :: z'.
Proof.
  intros l a b x y z H Na Nb E.
  destruct (valid_order_else l H) as (first & rest & -> & _ & _ & ->).
  { intro F. subst l. destruct x; discriminate. }
  assert (Fa : negb (String.eqb a "clean") = true) by now apply negb_true_iff, String.eqb_neq.
  assert (Fb : negb (String.eqb b "clean") = true) by now apply negb_true_iff, String.eqb_neq.
  subst l. rewrite filter_app. cbn [filter]. rewrite Fa. rewrite filter_app. cbn [filter]. rewrite Fb.
  eexists (first ++ _), _, _. rewrite <- app_assoc. reflexivity.
Qed.

(** * The version *)

Lemma append_inj : forall a b c, append a b = append a c -> b = c.
Proof. induction a as [|x a IH]; intros b c H; [assumption|]. injection H as H. now apply IH. Qed.

Lemma append_length : forall a b, String.length (append a b) = String.length a + String.length b.
Proof. induction a as [|x a IH]; intro b; [reflexivity|]. cbn. now rewrite IH. Qed.

Lemma append_inj_r : forall a b c, append a c = append b c -> a = b.
Proof.
  induction a as [|x a IH]; intros [|y b] c H; try reflexivity.
  - exfalso. apply (f_equal String.length) in H. cbn in H. rewrite append_length in H. lia.
  - exfalso. apply (f_equal String.length) in H. cbn in H. rewrite append_length in H. lia.
  - injection H as -> H. f_equal. now apply IH in H.
Qed.

Lemma to_int_not_nil : forall n, Z.to_int n <> Decimal.Pos Decimal.Nil /\ Z.to_int n <> Decimal.Neg Decimal.Nil.
Proof.
  intro n. destruct n as [|p|p]; cbn; split; try discriminate; intro H; injection H as H;
    now apply DecimalPos.Unsigned.to_uint_nonnil in H.
Qed.

Lemma decimal_inj : forall a b, decimal a = decimal b -> a = b.
Proof.
  intros a b H. unfold decimal in H.
  apply (f_equal NilZero.int_of_string) in H.
  destruct (to_int_not_nil a), (to_int_not_nil b).
  rewrite !NilZero.isi in H by assumption.
  injection H as H. apply (f_equal Z.of_int) in H. now rewrite !DecimalZ.of_to in H.
Qed.

Lemma supported_iff : forall n, existsb (String.eqb (decimal n)) supported = true <-> (7 <= n <= 16)%Z.
Proof.
  intro n. split.
  - intro H. apply existsb_exists in H. destruct H as (s & Hin & E). apply String.eqb_eq in E. subst s.
    assert (K : exists m, (7 <= m <= 16)%Z /\ decimal n = decimal m).
    { unfold supported in Hin. cbn [In] in Hin.
      repeat (destruct Hin as [Hin|Hin]; [rewrite <- Hin;
        first [exists 7%Z; split; [lia|reflexivity] | exists 8%Z; split; [lia|reflexivity]
             | exists 9%Z; split; [lia|reflexivity] | exists 10%Z; split; [lia|reflexivity]
             | exists 11%Z; split; [lia|reflexivity] | exists 12%Z; split; [lia|reflexivity]
             | exists 13%Z; split; [lia|reflexivity] | exists 14%Z; split; [lia|reflexivity]
             | exists 15%Z; split; [lia|reflexivity] | exists 16%Z; split; [lia|reflexivity]]|]).
      destruct Hin. }
    destruct K as (m & Hm & E). apply decimal_inj in E. now subst.
  - intro H.
    assert (K : (n = 7 \/ n = 8 \/ n = 9 \/ n = 10 \/ n = 11 \/ n = 12 \/ n = 13 \/ n = 14 \/ n = 15 \/ n = 16)%Z) by lia.
    repeat (destruct K as [->|K]; [reflexivity|]). subst. reflexivity.
Qed.

Lemma built_version : forall n,
  bits_dir (decimal n) = append "source/bits" (decimal (if (7 <=? n)%Z && (n <=? 16)%Z then n else 16)).
Proof.
  intro n. unfold bits_dir, cmake_version. f_equal.
  destruct (existsb (String.eqb (decimal n)) supported) eqn:E.
  - apply supported_iff in E. replace ((7 <=? n)%Z && (n <=? 16)%Z) with true; [reflexivity|].
    symmetry. apply andb_true_iff. split; apply Z.leb_le; lia.
  - destruct ((7 <=? n)%Z && (n <=? 16)%Z) eqn:F; [|reflexivity].
    apply andb_true_iff in F. destruct F as (F1 & F2). apply Z.leb_le in F1, F2.
    assert (existsb (String.eqb (decimal n)) supported = true) by (apply supported_iff; lia). congruence.
Qed.

Lemma package_says : forall n v,
  package_name n = package_name v <-> n = v.
Proof.
  intros n v. split; [|now intros ->]. unfold package_name. intro H.
  apply append_inj in H. apply append_inj_r in H. now apply decimal_inj.
Qed.

Lemma version_agrees : forall n v, bits_dir (decimal n) = append "source/bits" (decimal v) ->
  (package_name n = package_name v <-> (7 <= n <= 16)%Z).
Proof.
  intros n v H. rewrite built_version in H. apply append_inj, decimal_inj in H.
  rewrite package_says. destruct ((7 <=? n)%Z && (n <=? 16)%Z) eqn:F.
  - apply andb_true_iff in F. destruct F as (F1 & F2). apply Z.leb_le in F1, F2. split; intro; [lia|assumption].
  - split; [intro; subst; discriminate|]. intro K. exfalso.
    assert ((7 <=? n)%Z && (n <=? 16)%Z = true); [|congruence]. apply andb_true_iff. split; apply Z.leb_le; lia.
Qed.

(** * The compiler *)

Lemma spelled_long : forall q c, 1 <= String.length (spelled q c).
Proof.
  intros q c. unfold spelled.
  repeat match goal with |- context [if ?b then _ else _] => destruct b end; cbn; lia.
Qed.

Lemma spell_long : forall q s, String.length s <= String.length (spell q s).
Proof.
  intros q s. induction s as [|c s IH]; [cbn; lia|].
  cbn [spell String.length]. rewrite append_length. pose proof (spelled_long q c). lia.
Qed.

Lemma repr_long : forall s, String.length s < String.length (repr s).
Proof.
  intro s. unfold repr. cbv zeta. set (q := if _ : bool then _ else _).
  cbn [String.length]. rewrite append_length. cbn [String.length]. pose proof (spell_long q s). lia.
Qed.

Lemma cxx_given : forall s, s <> "" -> cxx (Some s) None = Some (repr s) /\ repr s <> s.
Proof.
  intros s N. split.
  - unfold cxx, configured_compiler. destruct s as [|c s]; [contradiction|]. reflexivity.
  - intro E. pose proof (repr_long s) as L. rewrite E in L. lia.
Qed.

Lemma cxx_inherited : forall g i, cxx g (Some i) = Some i.
Proof.
  intros g i. unfold cxx. destruct (configured_compiler g) as [[|c s]|]; reflexivity.
Qed.

Lemma cxx_none : forall i, cxx None i = i.
Proof. reflexivity. Qed.

(** * Targets that are not known *)

Lemma clean_without_nsis : forall here package d, clean here false package d = (Raised NoKey, d).
Proof. reflexivity. Qed.
