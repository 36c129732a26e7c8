(** What the installer and the uninstaller leave. *)
From Coq Require Import ZArith List Bool String Ascii Lia.
From Verif Require Import Model.Make Model.Unix Model.Nsis Spec.Install Spec.Nsis.
From Verif Require Spec.Unix.
From Verif Require Import Proof.InstallFacts Proof.InstallDone Proof.InstallUndo Proof.InstallGather Proof.InstallRest Proof.InstallCase Proof.Unix Proof.Nsis.
Import ListNotations.
Open Scope string_scope.
Open Scope list_scope.

(** * The installer *)

Lemma group_length : forall g, In g ([] :: groups) -> List.length g = 0 \/ List.length g = 2 \/ List.length g = 3.
Proof. intros g H. cbn in H. repeat (destruct H as [<-|H]; [cbn; auto|]). destruct H. Qed.

Lemma not_on : forall root d pkg g fs x data s, pack root d = Some pkg ->
  In (g, fs) pkg -> In (x, data) fs -> ~ In (g ++ [x] ++ s) (map fst pkg).
Proof.
  intros root d pkg g fs x data s P I J K. destruct (pack_in _ _ _ P) as (M & _ & C). rewrite M in K.
  assert (Q : carried pkg (g ++ [x]) data) by (exists g, fs, x; auto).
  apply C in Q. destruct Q as ([Q|(h & y & H & Q)] & _).
  - apply (app_inj_tail g [] x "FindANSAK.cmake") in Q. destruct Q as (-> & ->). cbn [app] in K.
    cbn in K. repeat (destruct K as [K|K]; [discriminate|]). destruct K.
  - apply app_inj_tail in Q. destruct Q as (<- & <-).
    cbn in H. repeat (destruct H as [<-|H]; [cbn in K; repeat (destruct K as [K|K]; [discriminate|]); destruct K|]). destruct H.
Qed.

Lemma carried_not_remover : forall root d pkg s data, pack root d = Some pkg -> carried pkg s data -> s <> [uninstaller_name].
Proof.
  intros root d pkg s data P C E. apply (pack_in _ _ _ P) in C. destruct C as ([->|(g & x & G & ->)] & _); [discriminate|].
  apply (app_inj_tail g [] x) in E. destruct E as (-> & _). cbn in G. intuition discriminate.
Qed.

Lemma section_stages : forall pkg inst exe d d', install_section pkg inst exe d = (Returned tt, d') ->
  exists d1, each (install_group inst) pkg d = (Returned tt, d1) /\
    d' = snd (write (inst ++ [uninstaller_name]) exe d1).
Proof.
  intros pkg inst exe d d' H. unfold install_section, andthen in H.
  destruct (each (install_group inst) pkg d) as [[[]|e] d1]; [|discriminate].
  unfold semicolon in H. injection H as <-. now exists d1.
Qed.

Theorem installer_done : forall root d0 pkg inst exe d d', pack root d0 = Some pkg ->
  install_section pkg inst exe d = (Returned tt, d') ->
  forall s data, (s = cmake_file \/ exists g x, holds g /\ s = g ++ [x]) ->
    look d0 (root ++ s) = Some (File data) -> look d' (inst ++ s) = Some (File data).
Proof.
  intros root d0 pkg inst exe d d' P H s data S L.
  destruct (pack_in _ _ _ P) as (M & N & C).
  assert (Q : carried pkg s data).
  { apply C. split; [|assumption]. destruct S as [->|(g & x & G & ->)]; [now left|right].
    exists g, x. split; [now apply groups_holds|reflexivity]. }
  destruct (section_stages _ _ _ _ _ H) as (d1 & E & ->).
  assert (X : look d1 (inst ++ s) = Some (File data)).
  { apply (each_groups inst pkg d d1); [pose proof groups_apart as GA; rewrite <- M in GA; exact GA|exact N| |exact E|exact Q].
    intros. eapply not_on; eassumption. }
  destruct (write (inst ++ [uninstaller_name]) exe d1) as [r d2] eqn:W. cbn [snd].
  destruct (write_step _ _ _ _ _ (app_end_not_nil _ _) W) as [(_ & (_ & K) & _)|(e & _ & ->)]; [|assumption].
  rewrite K, same_app. destruct (same [uninstaller_name] s) eqn:F; [|assumption].
  apply same_true in F. subst s. exfalso. eapply carried_not_remover; eauto.
Qed.

Lemma pack_cmake : forall root d pkg, pack root d = Some pkg -> exists data, look d (root ++ cmake_file) = Some (File data).
Proof.
  intros root d pkg H. unfold pack in H. unfold cmake_file.
  destruct (look d (root ++ ["FindANSAK.cmake"])) as [[|c]|]; try discriminate. eauto.
Qed.

Lemma pack_holds : forall root d pkg g, pack root d = Some pkg -> holds g ->
  exists x data, look d (root ++ g ++ [x]) = Some (File data).
Proof.
  intros root d pkg g H G. unfold pack in H. destruct (look d (root ++ ["FindANSAK.cmake"])) as [[|c]|]; try discriminate.
  destruct (pack_groups root groups d) as [l|] eqn:P; [|discriminate].
  destruct (pack_groups_in _ _ _ _ P) as (M & I). apply groups_holds in G. rewrite <- M in G.
  apply in_map_iff in G. destruct G as ((g', fs) & E & G). cbn [fst] in E. subst g'.
  destruct (I _ _ G) as (-> & N). destruct (collect d (root ++ g)) as [|(x, data) fs'] eqn:C; [contradiction|].
  exists x, data. rewrite app_assoc. apply collect_in. rewrite C. now left.
Qed.

Theorem installer_keeps : forall root d0 pkg inst exe d r d', pack root d0 = Some pkg ->
  install_section pkg inst exe d = (r, d') ->
  untouched_but (by_installer (fun s => exists data, look d0 (root ++ s) = Some (File data)) inst) d d' /\
  (forall p, look d p = Some Dir -> look d' p = Some Dir) /\ (forall p, look d p <> None -> look d' p <> None).
Proof.
  intros root d0 pkg inst exe d r d' P H.
  destruct (pack_in _ _ _ P) as (M & _ & C).
  destruct (install_adds _ _ _ _ _ _ H) as (W & L).
  split; [split; [assumption|]|split].
  - intros p N. destruct (L p) as [|(Q & _)]; [assumption|]. exfalso. apply N.
    destruct Q as [(g & G & K & _)|[(s & data & K & -> & _)|(-> & _)]].
    + assert (G' : In g ([] :: groups)) by (rewrite <- M; exact G). clear G. destruct G' as [<-|G].
      * right. left. now rewrite app_nil_r in K.
      * left. exists g. split; [now apply groups_holds|assumption].
    + apply C in K. destruct K as ([->|(g & x & G & ->)] & E).
      * right. right. right. now left.
      * right. right. left. exists g, x. split; [now apply groups_holds|]. split; [eauto|reflexivity].
    + now right; right; right; right.
  - intros p D. destruct (L p) as [|(_ & N & _)]; [congruence|contradiction].
  - intros p D. destruct (L p) as [|(_ & _ & N & _)]; [congruence|assumption].
Qed.

Lemma write_sound : forall p data d r d', p <> [] -> write p data d = (r, d') -> sound d -> sound d'.
Proof.
  intros p data d r d' N H S. unfold write in H.
  assert (K : look d p <> Some Dir -> is_dir d (parent p) = true -> sound (put d p (File data))).
  { intros ND D q x X. apply is_dir_true in D. rewrite look_put in X |- * by assumption.
    assert (Y : look d q = Some Dir).
    { destruct (same p (q ++ [x])) eqn:E; [|now apply (S q x)]. apply same_true in E. rewrite E, parent_app in D. assumption. }
    destruct (same p q) eqn:E; [|assumption]. apply same_true in E. congruence. }
  destruct (look d p) as [[|c]|] eqn:L; [injection H as <- <-; assumption| |];
    (destruct (is_dir d (parent p)) eqn:D; cbn [negb] in H; [|injection H as <- <-; assumption];
     destruct (writable d p); cbn [negb] in H; injection H as <- <-; [apply K; [discriminate|reflexivity]|assumption]).
Qed.

Lemma mkdir_sound : forall p d r d', mkdir p d = (r, d') -> sound d -> sound d'.
Proof.
  intros p d r d' H S. destruct (mkdir_step _ _ _ _ H) as [(_ & (_ & L) & N & D & _)|(e & _ & -> & _)]; [|assumption].
  intros q x X. rewrite L in X |- *. destruct (same p q) eqn:E; [reflexivity|].
  destruct (same p (q ++ [x])) eqn:F; [|now apply (S q x)].
  apply same_true in F. rewrite F, parent_app in D. assumption.
Qed.

Lemma mkdir_below_sound : forall rest top d r d', mkdir_below top rest d = (r, d') -> sound d -> sound d'.
Proof.
  induction rest as [|x rest IH]; intros top d r d' H S; cbn [mkdir_below] in H.
  - injection H as <- <-. assumption.
  - unfold andthen in H. destruct (is_dir d (top ++ [x])).
    + now apply (IH _ _ _ _ H).
    + destruct (mkdir (top ++ [x]) d) as [[[]|e] d1] eqn:M; pose proof (mkdir_sound _ _ _ _ M S).
      * now apply (IH _ _ _ _ H).
      * now injection H as <- <-.
Qed.

Lemma each_sound : forall A (f : A -> io unit) l, (forall a d r d', In a l -> f a d = (r, d') -> sound d -> sound d') ->
  forall d r d', each f l d = (r, d') -> sound d -> sound d'.
Proof.
  intros A f. induction l as [|a l IH]; intros F d r d' H S; cbn [each] in H.
  - now injection H as <- <-.
  - unfold andthen in H. destruct (f a d) as [[[]|e] d1] eqn:M; pose proof (F a _ _ _ (or_introl eq_refl) M S).
    + eapply IH; try eassumption. intros b e r1 e' B. apply F. now right.
    + now injection H as <- <-.
Qed.

Lemma installer_sound : forall pkg inst exe d r d', install_section pkg inst exe d = (r, d') -> sound d -> sound d'.
Proof.
  intros pkg inst exe d r d' H S. unfold install_section, andthen in H.
  destruct (each (install_group inst) pkg d) as [[[]|e] d1] eqn:E.
  - assert (S1 : sound d1).
    { eapply each_sound; [|exact E|exact S]. intros g e r1 e' _ G Q. unfold install_group, semicolon in G.
      destruct (mkdir_p (inst ++ fst g) e) as [r2 e2] eqn:K. cbn [snd] in G.
      eapply each_sound; [|exact G|]; [|now apply (mkdir_below_sound _ _ _ _ _ K)].
      intros f f1 r3 f2 _ Z. eapply write_sound; [apply last_not_nil|exact Z]. }
    unfold semicolon in H. destruct (write (inst ++ [uninstaller_name]) exe d1) as [r2 d2] eqn:K. cbn [snd] in H.
    injection H as <- <-. eapply write_sound; [apply app_end_not_nil|exact K|exact S1].
  - injection H as <- <-. eapply each_sound; [|exact E|exact S]. intros g e0 r1 e' _ G Q. unfold install_group, semicolon in G.
    destruct (mkdir_p (inst ++ fst g) e0) as [r2 e2] eqn:K. cbn [snd] in G.
    eapply each_sound; [|exact G|]; [|now apply (mkdir_below_sound _ _ _ _ _ K)].
    intros f f1 r3 f2 _ Z. eapply write_sound; [apply last_not_nil|exact Z].
Qed.

(** What is gathered by make.py, whatever else is in the directory, arrives. *)
Theorem packaged : forall here d0 d1 d2 pkg inst exe d d' t s, gather here d0 = (Returned tt, d1) ->
  (forall p, ours (here ++ ["build"; "nsis"]) p -> look d2 p = look d1 p) ->
  pack (here ++ ["build"; "nsis"]) d2 = Some pkg ->
  install_section pkg inst exe d = (Returned tt, d') -> belongs t s ->
  exists data, look d' (inst ++ s) = Some (File data) /\
    (look d0 (here ++ t) = Some (File data) \/
     exists a, In a architectures /\ t = built a "RelWithDebInfo" database /\
       is_file d0 (here ++ t) = false /\
       look d0 (here ++ ["build"; a; "ansakString.dir"; "RelWithDebInfo"; database]) = Some (File data)).
Proof.
  intros here d0 d1 d2 pkg inst exe d d' t s G A P I B.
  destruct (gathered_right _ _ _ _ _ G B) as (data & L & O). exists data. split; [|assumption].
  eapply installer_done; [exact P|exact I| |].
  - right. destruct B as [h H|a c X Y|a c X Y].
    + exists ["include"; "ansak"], h. split; [constructor|reflexivity].
    + exists ["lib"; a; c], library. split; [now constructor|reflexivity].
    + exists ["lib"; a; c], database. split; [|reflexivity]. constructor; [assumption|].
      cbn in Y |- *. tauto.
  - rewrite A.
    + now rewrite <- app_assoc.
    + exists s. split; [reflexivity|]. left. now exists t.
Qed.

(** * The uninstaller *)

Definition deletable (d : disk) (p : path) : bool :=
  match look d p with Some (File _) => writable d p | _ => false end.

Lemma quiet_unlink : forall p d, writable (quiet (unlink p) d) = writable d /\
  forall q, look (quiet (unlink p) d) q = if same p q && deletable d q then None else look d q.
Proof.
  intros p d. unfold quiet, unlink, deletable. destruct (look d p) as [[|data]|] eqn:L; cbn [snd].
  - split; [reflexivity|]. intro q. destruct (same p q) eqn:S; [|reflexivity]. apply same_true in S. subst q. now rewrite L.
  - destruct (writable d p) eqn:W; cbn [snd]; (split; [reflexivity|]); intro q.
    + destruct p as [|a p]; [discriminate|]. rewrite look_drop by discriminate.
      destruct (same (a :: p) q) eqn:S; [|reflexivity]. apply same_true in S. subst q. now rewrite L, W.
    + destruct (same p q) eqn:S; [|reflexivity]. apply same_true in S. subst q. now rewrite L, W.
  - split; [reflexivity|]. intro q. destruct (same p q) eqn:S; [|reflexivity]. apply same_true in S. subst q. now rewrite L.
Qed.

Lemma quiet_rmdir : forall p d, p <> [] -> writable (quiet (rmdir p) d) = writable d /\
  (forall q, q <> p -> look (quiet (rmdir p) d) q = look d q) /\
  (look (quiet (rmdir p) d) p = look d p \/ (vacant d p /\ look (quiet (rmdir p) d) p = None)) /\
  (vacant d p -> writable d p = true -> look (quiet (rmdir p) d) p = None).
Proof.
  intros p d N. unfold quiet, rmdir. destruct (look d p) as [[|data]|] eqn:L; cbn [snd].
  - destruct (is_empty d p) eqn:E; cbn [negb snd].
    + assert (V : vacant d p).
      { split; [assumption|]. intros (x & X). pose proof (proj1 (is_empty_true d p) E x). contradiction. }
      destruct (writable d p) eqn:W; cbn [snd].
      * split; [reflexivity|]. split; [|split].
        -- intros q Q. rewrite look_drop by assumption. destruct (same p q) eqn:S; [|reflexivity].
           apply same_true in S. congruence.
        -- right. split; [assumption|]. rewrite look_drop by assumption. now rewrite same_refl.
        -- intros _ _. rewrite look_drop by assumption. now rewrite same_refl.
      * repeat split; auto; discriminate.
    + repeat split; auto. intros (_ & V) _. exfalso. apply V.
      destruct (names_in d p) as [|x l] eqn:Q.
      * exfalso. apply names_nil in Q. assert (E' : is_empty d p = true); [|congruence].
        apply is_empty_true. intro x. destruct (look d (p ++ [x])) eqn:X; [|reflexivity]. exfalso. apply Q. exists x. congruence.
      * exists x. apply names_in_true. rewrite Q. now left.
  - repeat split; auto. intros (V & _). congruence.
  - repeat split; auto.
Qed.

Lemma deletions_look : forall inst l d, let d' := fold_left (fun d p => quiet (unlink (inst ++ p)) d) l d in
  writable d' = writable d /\
  forall q, look d' q = if existsb (fun p => same (inst ++ p) q) l && deletable d q then None else look d q.
Proof.
  intros inst l. induction l as [|p l IH]; intros d d'; subst d'; cbn [fold_left existsb].
  - split; [reflexivity|]. intro q. reflexivity.
  - destruct (IH (quiet (unlink (inst ++ p)) d)) as (W & L). cbn zeta in W, L.
    destruct (quiet_unlink (inst ++ p) d) as (W1 & L1). split; [congruence|]. intro q.
    rewrite L. unfold deletable at 1. rewrite W1, !L1.
    destruct (same (inst ++ p) q); cbn [andb orb]; [|reflexivity].
    destruct (deletable d q) eqn:D; cbn [andb].
    + now destruct (existsb (fun p : list string => same (inst ++ p) q) l).
    + unfold deletable in D. rewrite D. now rewrite andb_false_r.
Qed.

Lemma deletions_ours : forall s, In s deletions <-> our_file s.
Proof.
  intro s. split.
  - intro H. cbn in H.
    repeat (destruct H as [<-|H]; [first
      [ eexists; apply belongs_header; cbn; tauto
      | eexists; apply (belongs_library "Win32" _); cbn; tauto
      | eexists; apply (belongs_library "x64" _); cbn; tauto
      | eexists; apply (belongs_database "Win32" _); cbn; tauto
      | eexists; apply (belongs_database "x64" _); cbn; tauto ]|]). destruct H.
  - intros (t & [h H|a c A C|a c A C]).
    + cbn in H. repeat (destruct H as [<-|H]; [cbn; tauto|]). destruct H.
    + cbn in A, C. repeat (destruct A as [<-|A]; [repeat (destruct C as [<-|C]; [cbn; tauto|]); destruct C|]). destruct A.
    + cbn in A, C. repeat (destruct A as [<-|A]; [repeat (destruct C as [<-|C]; [cbn; tauto|]); destruct C|]). destruct A.
Qed.

Lemma if_none : forall (b : bool) (x : option node), x = None -> (if b then None else x) = None.
Proof. intros b x ->. now destruct b. Qed.

Section Removal.
Variables inst : path.

Let ansak : path := inst ++ ["include"; "ansak"].

Lemma existsb_ours : forall q, existsb (fun p => same (inst ++ p) q) deletions = true <-> exists s, our_file s /\ q = inst ++ s.
Proof.
  intro q. rewrite existsb_exists. split.
  - intros (s & I & E). apply same_true in E. exists s. split; [now apply deletions_ours|now symmetry].
  - intros (s & O & ->). exists s. split; [now apply deletions_ours|apply same_refl].
Qed.

(** The disk once the files have been deleted. *)
Definition emptied (d : disk) : disk := fold_left (fun d p => quiet (unlink (inst ++ p)) d) deletions d.

Lemma emptied_look : forall d, writable (emptied d) = writable d /\ forall q,
  ((exists s, our_file s /\ q = inst ++ s) /\ deletable d q = true /\ look (emptied d) q = None) \/
  (look (emptied d) q = look d q /\ (deletable d q = false \/ ~ exists s, our_file s /\ q = inst ++ s)).
Proof.
  intro d. destruct (deletions_look inst deletions d) as (W & L). fold (emptied d) in W, L. split; [assumption|].
  intro q. rewrite L. destruct (existsb (fun p : list string => same (inst ++ p) q) deletions) eqn:E.
  - apply existsb_ours in E. destruct (deletable d q) eqn:D; cbn [andb]; auto.
  - cbn [andb]. right. split; [reflexivity|right]. intro K. apply existsb_ours in K. congruence.
Qed.

Lemma section_cases : forall d, let d' := uninstall_section inst d in
  (~ vacant (emptied d) ansak /\ d' = quiet (unlink (inst ++ remover)) (emptied d)) \/
  (vacant (emptied d) ansak /\
   d' = quiet (unlink (inst ++ remover)) (quiet (unlink (inst ++ cmake_file)) (quiet (rmdir ansak) (emptied d)))).
Proof.
  intros d d'. subst d'. unfold uninstall_section. fold (emptied d). fold ansak.
  change [uninstaller_name] with remover. change ["FindANSAK.cmake"] with cmake_file.
  destruct (answers_one (emptied d) ansak fresh_machine) eqn:A.
  - right. split; [now apply answers|reflexivity].
  - left. split; [|reflexivity]. intro V. apply answers in V. congruence.
Qed.

Lemma ansak_not_nil : ansak <> [].
Proof. unfold ansak. destruct inst; discriminate. Qed.

(** The whole of what it does to the disk *)
Theorem uninstaller_keeps : forall d, let d' := uninstall_section inst d in
  writable d' = writable d /\
  (forall p, look d' p = look d p \/ (look d' p = None /\ by_uninstaller inst p)) /\
  (forall p, look d p = Some Dir -> p <> inst ++ ["include"; "ansak"] -> look d' p = Some Dir).
Proof.
  intros d d'. destruct (emptied_look d) as (W0 & L0).
  assert (F : forall q, look (emptied d) q = look d q \/ (look (emptied d) q = None /\ by_uninstaller inst q)).
  { intro q. destruct (L0 q) as [((s & O & ->) & _ & E)|(E & _)]; [right|now left]. split; [assumption|].
    exists s. split; [reflexivity|now left]. }
  assert (U : forall s e, by_uninstaller inst (inst ++ s) ->
    (forall q, look e q = look d q \/ (look e q = None /\ by_uninstaller inst q)) ->
    forall q, look (quiet (unlink (inst ++ s)) e) q = look d q \/
      (look (quiet (unlink (inst ++ s)) e) q = None /\ by_uninstaller inst q)).
  { intros s e B E q. destruct (quiet_unlink (inst ++ s) e) as (_ & L). rewrite L.
    destruct (same (inst ++ s) q && deletable e q) eqn:S; [|apply E]. right. split; [reflexivity|].
    apply andb_true_iff in S. destruct S as (S & _). apply same_true in S. now subst q. }
  assert (D : forall s e, (forall q, look d q = Some Dir -> q <> ansak -> look e q = Some Dir) ->
    forall q, look d q = Some Dir -> q <> ansak -> look (quiet (unlink (inst ++ s)) e) q = Some Dir).
  { intros s e E q Q N. destruct (quiet_unlink (inst ++ s) e) as (_ & L). rewrite L.
    unfold deletable. rewrite (E q Q N). now rewrite andb_false_r. }
  assert (D0 : forall q, look d q = Some Dir -> q <> ansak -> look (emptied d) q = Some Dir).
  { intros q Q _. destruct (L0 q) as [(_ & X & _)|(E & _)]; [|congruence]. unfold deletable in X. now rewrite Q in X. }
  assert (B1 : by_uninstaller inst (inst ++ remover)) by (exists remover; auto).
  assert (B2 : by_uninstaller inst (inst ++ cmake_file)) by (exists cmake_file; auto).
  destruct (section_cases d) as [(V & E)|(V & E)]; cbn zeta in E; fold d' in E; rewrite E.
  - destruct (quiet_unlink (inst ++ remover) (emptied d)) as (W1 & _).
    split; [congruence|]. split; [now apply U|now apply D].
  - destruct (quiet_rmdir ansak (emptied d) ansak_not_nil) as (W2 & L2 & L3 & _).
    destruct (quiet_unlink (inst ++ cmake_file) (quiet (rmdir ansak) (emptied d))) as (W3 & _).
    destruct (quiet_unlink (inst ++ remover) (quiet (unlink (inst ++ cmake_file)) (quiet (rmdir ansak) (emptied d)))) as (W4 & _).
    split; [congruence|]. split.
    + apply U; [assumption|]. apply U; [assumption|]. intro q.
      destruct (list_eq_dec string_dec q ansak) as [->|N].
      * destruct L3 as [L3|(_ & L3)].
        -- rewrite L3. apply F.
        -- right. split; [assumption|]. exists ["include"; "ansak"]. auto.
      * rewrite L2 by assumption. apply F.
    + apply D. apply D. intros q Q N. rewrite L2 by assumption. now apply D0.
Qed.

Lemma not_ours_single : forall x, ~ our_file [x].
Proof. intros x (t & H). inversion H. Qed.

(** The files are gone. *)
Theorem uninstaller_done : forall d s data, (our_file s \/ s = remover) ->
  look d (inst ++ s) = Some (File data) -> writable d (inst ++ s) = true ->
  look (uninstall_section inst d) (inst ++ s) = None.
Proof.
  intros d s data O L W. destruct (emptied_look d) as (W0 & L0).
  assert (DE : deletable d (inst ++ s) = true) by (unfold deletable; now rewrite L).
  assert (NA : inst ++ s <> ansak).
  { intro E. unfold ansak in E. apply app_inv_head in E. subst s. destruct O as [(t & O)|O]; [inversion O|discriminate]. }
  assert (K : forall e, (look e (inst ++ s) = None \/ (s = remover /\ look e (inst ++ s) = Some (File data) /\ writable e = writable d)) ->
    look (quiet (unlink (inst ++ remover)) e) (inst ++ s) = None).
  { intros e H. destruct (quiet_unlink (inst ++ remover) e) as (_ & Q). rewrite Q.
    destruct H as [H|(-> & H & X)].
    - now apply if_none.
    - rewrite same_refl. unfold deletable. rewrite H, X, W. reflexivity. }
  assert (Z : look (emptied d) (inst ++ s) = None \/ (s = remover /\ look (emptied d) (inst ++ s) = Some (File data))).
  { destruct (L0 (inst ++ s)) as [(_ & _ & E)|(E & [X|X])]; [now left|congruence|].
    destruct O as [O|O]; [exfalso; apply X; eauto|]. right. split; [assumption|congruence]. }
  destruct (section_cases d) as [(V & E)|(V & E)]; cbn zeta in E; rewrite E; apply K.
  - destruct Z as [Z|(Z1 & Z2)]; auto.
  - destruct (quiet_rmdir ansak (emptied d) ansak_not_nil) as (W2 & L2 & _).
    destruct (quiet_unlink (inst ++ cmake_file) (quiet (rmdir ansak) (emptied d))) as (W3 & L3).
    rewrite L3, L2 by assumption. destruct Z as [Z|(Z1 & Z2)].
    + left. now apply if_none.
    + right. split; [assumption|]. split; [|congruence]. rewrite Z1. rewrite same_app. cbn [same]. rewrite <- Z1.
      replace (same cmake_file s) with false by (rewrite Z1; reflexivity). cbn [andb]. congruence.
Qed.

(** The file for cmake stays unless include\ansak is left empty. *)
Theorem cmake_stays : forall d, ~ vacant (emptied d) ansak ->
  look (uninstall_section inst d) (inst ++ cmake_file) = look d (inst ++ cmake_file).
Proof.
  intros d V. destruct (section_cases d) as [(_ & E)|(V' & _)]; [|contradiction]. cbn zeta in E. rewrite E.
  destruct (quiet_unlink (inst ++ remover) (emptied d)) as (_ & L). rewrite L, same_app. cbn.
  destruct (emptied_look d) as (_ & L0). destruct (L0 (inst ++ cmake_file)) as [((s & O & X) & _)|(X & _)]; [|assumption].
  apply app_inv_head in X. subst s. now apply not_ours_single in O.
Qed.

Theorem cmake_stays_if : forall d, look d (inst ++ ["include"; "ansak"]) <> Some Dir \/
    (exists x, ~ In x headers /\ look d (inst ++ ["include"; "ansak"; x]) <> None) ->
  look (uninstall_section inst d) (inst ++ cmake_file) = look d (inst ++ cmake_file).
Proof.
  intros d H. apply cmake_stays. intros (D & N). destruct (emptied_look d) as (_ & L0). destruct H as [H|(x & X & Y)].
  - destruct (L0 ansak) as [(_ & _ & E)|(E & _)]; [congruence|]. unfold ansak in E, D. congruence.
  - apply N. exists x. unfold ansak. rewrite <- app_assoc. cbn [app].
    destruct (L0 (inst ++ ["include"; "ansak"; x])) as [((s & O & E) & _)|(E & _)]; [|congruence].
    apply app_inv_head in E. subst s. exfalso. apply X. destruct O as (t & O). inversion O; subst; assumption.
Qed.

(** And is removed, with the directory, where it is. *)
Theorem cmake_gone : forall d data, look d (inst ++ ["include"; "ansak"]) = Some Dir ->
  (forall x, look d (inst ++ ["include"; "ansak"; x]) <> None ->
     In x headers /\ deletable d (inst ++ ["include"; "ansak"; x]) = true) ->
  writable d (inst ++ ["include"; "ansak"]) = true ->
  look d (inst ++ cmake_file) = Some (File data) -> writable d (inst ++ cmake_file) = true ->
  look (uninstall_section inst d) (inst ++ ["include"; "ansak"]) = None /\
  look (uninstall_section inst d) (inst ++ cmake_file) = None.
Proof.
  intros d data D A WA C WC. destruct (emptied_look d) as (W0 & L0).
  assert (DA : look (emptied d) ansak = Some Dir).
  { destruct (L0 ansak) as [(_ & X & _)|(E & _)]; [|unfold ansak in *; congruence]. unfold deletable, ansak in X. now rewrite D in X. }
  assert (V : vacant (emptied d) ansak).
  { split; [assumption|]. intros (x & X). unfold ansak in X. rewrite <- app_assoc in X. cbn [app] in X.
    destruct (L0 (inst ++ ["include"; "ansak"; x])) as [(_ & _ & E)|(E & Y)]; [congruence|].
    rewrite E in X. destruct (A x X) as (H & Z). destruct Y as [Y|Y]; [congruence|]. apply Y.
    exists ["include"; "ansak"; x]. split; [|reflexivity]. eexists. now constructor. }
  destruct (section_cases d) as [(V' & _)|(_ & E)]; [contradiction|]. cbn zeta in E. rewrite E.
  destruct (quiet_rmdir ansak (emptied d) ansak_not_nil) as (W2 & L2 & _ & L3).
  assert (WA' : writable (emptied d) ansak = true) by (rewrite W0; exact WA). specialize (L3 V WA').
  destruct (quiet_unlink (inst ++ cmake_file) (quiet (rmdir ansak) (emptied d))) as (W4 & L4).
  destruct (quiet_unlink (inst ++ remover) (quiet (unlink (inst ++ cmake_file)) (quiet (rmdir ansak) (emptied d)))) as (_ & L5).
  assert (NC : inst ++ cmake_file <> ansak) by (unfold ansak; intro X; apply app_inv_head in X; discriminate).
  split.
  - fold ansak. rewrite L5. apply if_none. rewrite L4. now apply if_none.
  - rewrite L5. apply if_none. rewrite L4, same_refl. unfold deletable. rewrite L2 by assumption.
    assert (CE : look (emptied d) (inst ++ cmake_file) = Some (File data)).
    { destruct (L0 (inst ++ cmake_file)) as [((s & O & X) & _)|(X & _)]; [|congruence].
      apply app_inv_head in X. subst s. now apply not_ours_single in O. }
    rewrite CE, W2, W0, WC. reflexivity.
Qed.

End Removal.

(** * Both *)

Theorem round_trip : forall root d0 pkg inst exe d d1, sound d -> pack root d0 = Some pkg ->
  (forall g x data, holds g -> look d0 (root ++ g ++ [x]) = Some (File data) -> our_file (g ++ [x])) ->
  install_section pkg inst exe d = (Returned tt, d1) ->
  (forall s, our_file s \/ s = ["include"; "ansak"] \/ s = cmake_file \/ s = remover ->
     look d (inst ++ s) = None /\ writable d (inst ++ s) = true) ->
  let d2 := uninstall_section inst d1 in
  forall p, look d2 p = look d p \/
    (look d p = None /\ look d2 p = Some Dir /\
     ((exists g, holds g /\ on_the_way p (inst ++ g)) \/ on_the_way p inst)).
Proof.
  intros root d0 pkg inst exe d d1 S P X I N d2 p.
  destruct (pack_in _ _ _ P) as (M & _ & C). destruct (install_adds _ _ _ _ _ _ I) as (W & L).
  destruct (uninstaller_keeps inst d1) as (W2 & K & KD). cbn zeta in K, KD. fold d2 in W2, K, KD.
  assert (GONE : forall s, our_file s \/ s = remover -> look d2 (inst ++ s) = None).
  { intros s O. destruct (K (inst ++ s)) as [E|(E & _)]; [|assumption].
    destruct (N s) as (N1 & N2); [destruct O; auto|].
    destruct (look d1 (inst ++ s)) as [[|data]|] eqn:Q; [exfalso|
      unfold d2; apply (uninstaller_done inst d1 s data); [assumption|assumption|rewrite W; assumption]|congruence].
    (* a directory there *)
    destruct (L (inst ++ s)) as [E1|(R & _)]; [congruence|].
    destruct R as [(g & G & (t & T) & _)|[(s' & data & _ & _ & R)|(_ & R)]]; [|congruence|congruence].
    rewrite <- app_assoc in T. apply app_inv_head in T.
    assert (G' : In g ([] :: groups)) by (rewrite <- M; exact G). rewrite T in G'.
    destruct O as [O|O].
    - apply deletions_ours in O. cbn in O.
      repeat (destruct O as [<-|O]; [cbn in G'; repeat (destruct G' as [G'|G']; [discriminate|]); destruct G'|]). destruct O.
    - subst s. cbn in G'. repeat (destruct G' as [G'|G']; [discriminate|]). destruct G'. }
  assert (FRESH : forall x, look d (inst ++ ["include"; "ansak"; x]) = None).
  { intro x. destruct (look d (inst ++ ["include"; "ansak"; x])) eqn:E; [|reflexivity]. exfalso.
    destruct (N ["include"; "ansak"]) as (N1 & _); [auto|].
    assert (D : look d (inst ++ ["include"; "ansak"]) = Some Dir); [|congruence].
    apply (S _ x). rewrite <- app_assoc. cbn [app]. congruence. }
  destruct (pack_cmake _ _ _ P) as (cdata & CD).
  assert (AD : exists x data, look d1 (inst ++ ["include"; "ansak"] ++ [x]) = Some (File data)).
  { destruct (pack_holds _ _ _ ["include"; "ansak"] P (holds_headers)) as (x & data & E). exists x, data.
    eapply installer_done; try eassumption. right. exists ["include"; "ansak"], x. split; [constructor|reflexivity]. }
  assert (ANSAK : look d2 (inst ++ ["include"; "ansak"]) = None /\ look d2 (inst ++ cmake_file) = None).
  { unfold d2. apply (cmake_gone inst d1 cdata).
    - destruct AD as (x & data & E). destruct (L (inst ++ ["include"; "ansak"])) as [E1|(R & _)].
      + (* it was made: the file in it is new *)
        exfalso. destruct (L (inst ++ ["include"; "ansak"] ++ [x])) as [E2|_].
        * cbn [app] in E, E2. rewrite FRESH in E2. congruence.
        * destruct (N ["include"; "ansak"]) as (N1 & _); [auto|]. rewrite N1 in E1.
          assert (DD : sound d1) by (eapply installer_sound; eassumption).
          cbn [app] in E. assert (D : look d1 (inst ++ ["include"; "ansak"]) = Some Dir); [|congruence].
          apply (DD _ x). rewrite <- app_assoc. cbn [app]. congruence.
      + destruct R as [(g & _ & _ & R)|[(s & c & Q & R & _)|(R & _)]]; [assumption| |].
        * exfalso. apply app_inv_head in R. subst s. apply C in Q. destruct Q as ([Q|(g & y & G & Q)] & _); [discriminate|].
          change ["include"; "ansak"] with (["include"] ++ ["ansak"]) in Q. apply app_inj_tail in Q. destruct Q as (<- & _).
          cbn in G. intuition discriminate.
        * apply app_inv_head in R. discriminate.
    - intros x E. destruct (L (inst ++ ["include"; "ansak"; x])) as [E1|(R & _)]; [rewrite FRESH in E1; congruence|].
      destruct R as [(g & G & (t & T) & _)|[(s & c & Q & R & V)|(R & _)]].
      + exfalso. rewrite <- app_assoc in T. apply app_inv_head in T. cbn [app] in T.
        assert (G' : In g ([] :: groups)) by (rewrite <- M; exact G). rewrite T in G'.
        cbn in G'. repeat (destruct G' as [G'|G']; [discriminate|]). destruct G'.
      + apply app_inv_head in R. subst s. apply C in Q. destruct Q as (_ & Q).
        assert (O : our_file ["include"; "ansak"; x]) by (apply (X ["include"; "ansak"] x c); [constructor|exact Q]).
        split; [destruct O as (t & O); inversion O; subst; assumption|].
        unfold deletable. rewrite V, W. now apply N; left.
      + apply app_inv_head in R. discriminate.
    - rewrite W. now apply N; auto.
    - eapply installer_done; try eassumption. now left.
    - rewrite W. now apply N; auto. }
  destruct (L p) as [E|(R & ND & NN & NE)].
  - destruct (K p) as [E2|(E2 & (s & -> & O))]; [left; congruence|left]. rewrite E2. symmetry. now apply N.
  - destruct R as [(g & G & T & D)|[(s & c & Q & -> & _)|(-> & _)]].
    + specialize (NE D). destruct (list_eq_dec string_dec p (inst ++ ["include"; "ansak"])) as [->|NA].
      * left. now rewrite (proj1 ANSAK).
      * right. split; [assumption|]. split; [now apply KD|].
        assert (G' : In g ([] :: groups)) by (rewrite <- M; exact G). destruct G' as [<-|G'].
        -- right. now rewrite app_nil_r in T.
        -- left. exists g. split; [now apply groups_holds|assumption].
    + left. apply C in Q. destruct Q as ([->|(g & x & G & ->)] & Q).
      * rewrite (proj2 ANSAK). symmetry. now apply N; auto.
      * assert (O : our_file (g ++ [x])) by (eapply X; [now apply groups_holds|exact Q]).
        rewrite GONE by auto. symmetry. now apply N; auto.
    + left. change [uninstaller_name] with remover. rewrite GONE by auto. symmetry. now apply N; auto.
Qed.
