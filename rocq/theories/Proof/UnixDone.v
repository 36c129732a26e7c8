(** Installing, removing and cleaning with the Makefile. *)
From Coq Require Import ZArith List Bool String Ascii.
From Verif Require Import Model.Make Model.Stamps Model.Unix Spec.Install Spec.Unix.
From Verif Require Import Proof.InstallFacts Proof.InstallRest Proof.Unix.
Import ListNotations.
Open Scope string_scope.
Open Scope list_scope.

(** Directories were made, nothing else. *)
Definition grown (d d' : disk) : Prop :=
  writable d' = writable d /\
  forall q, look d' q = look d q \/ (look d q = None /\ look d' q = Some Dir).

Lemma grown_file : forall d d' p data, grown d d' -> look d' p = Some (File data) -> look d p = Some (File data).
Proof. intros d d' p data (_ & L) H. destruct (L p) as [E|(_ & E)]; congruence. Qed.

Lemma grown_kept : forall d d' p n, grown d d' -> look d p = Some n -> look d' p = Some n.
Proof. intros d d' p n (_ & L) H. destruct (L p) as [E|(E & _)]; congruence. Qed.

Lemma root_mkdir_p : forall root p d r d', as_root root (mkdir_p p) d = (r, d') ->
  grown d d' /\
  (forall q, look d' q = look d q \/
     (look d q = None /\ look d' q = Some Dir /\ leads_to q p /\ (root = false -> writable d q = true))) /\
  (r = Returned tt -> look d' p = Some Dir).
Proof.
  intros root p d r d' H.
  assert (T : touches (fun _ => True) (mkdir_p p)) by (eapply touches_more; [|apply touches_mkdir_p]; auto).
  destruct (as_root_runs _ _ _ _ _ H T) as (d1 & d1' & E1 & M & E2 & W & _ & _ & W1).
  destruct (mkdir_p_any _ _ _ _ M) as (_ & L).
  assert (L' : forall q, look d' q = look d q \/
     (look d q = None /\ look d' q = Some Dir /\ leads_to q p /\ (root = false -> writable d q = true))).
  { intro q. rewrite <- (look_entries d1' d' q E2), <- (look_entries d1 d q E1).
    destruct (L q) as [|(A & B & C & D)]; [now left|right]. repeat split; try assumption.
    intro F. now rewrite <- (W1 F). }
  split; [split; [assumption|]|split; [exact L'|]].
  - intro q. destruct (L' q) as [|(A & B & _)]; auto.
  - intros ->. rewrite <- (look_entries d1' d' p E2). now apply (mkdir_p_done _ _ _ M).
Qed.

Lemma touches_copies : forall dst l, touches (fun _ => True) (all_of (fun s => copy2 s dst) l).
Proof.
  intros dst l. apply touches_all. intros s _ d r d' H. split; [|auto].
  apply copy2_step in H. destruct H as [(data & _ & _ & (W & _) & _)|(e & _ & ->)]; [assumption|reflexivity].
Qed.

Lemma root_copies : forall root src dst xs d r d', src <> dst -> look d dst = Some Dir -> NoDup xs -> xs <> [] ->
  as_root root (cp (map (fun x => src ++ [x]) xs) dst) d = (r, d') ->
  writable d' = writable d /\
  (forall q, look d' q = look d q \/
     (exists x data, In x xs /\ q = dst ++ [x] /\ look d (src ++ [x]) = Some (File data) /\
        look d' q = Some (File data) /\ (root = false -> writable d q = true) /\ look d q <> Some Dir)) /\
  (r = Returned tt -> forall x, In x xs -> exists data,
     look d (src ++ [x]) = Some (File data) /\ look d' (dst ++ [x]) = Some (File data) /\
     (root = false -> writable d (dst ++ [x]) = true)).
Proof.
  intros root src dst xs d r d' N D U X H.
  assert (H' : as_root root (all_of (fun s => copy2 s dst) (map (fun x => src ++ [x]) xs)) d = (r, d')).
  { rewrite <- H. unfold as_root. destruct root.
    - rewrite cp_into; [reflexivity|assumption|]. rewrite <- D. now apply look_entries.
    - now rewrite cp_into. }
  clear H. destruct (as_root_runs _ _ _ _ _ H' (touches_copies _ _)) as (d1 & d1' & E1 & M & E2 & W & _ & _ & W1).
  assert (D1 : look d1 dst = Some Dir) by (rewrite <- D; now apply look_entries).
  destruct (copies_into _ _ _ _ _ _ N D1 U M) as (_ & L & R).
  split; [assumption|]. split.
  - intro q. rewrite <- (look_entries d1' d' q E2), <- (look_entries d1 d q E1).
    destruct (L q) as [|(x & data & I & -> & A & B & C & F)]; [now left|right].
    exists x, data. rewrite <- (look_entries d1 d (src ++ [x]) E1). repeat split; try assumption.
    intro Q. now rewrite <- (W1 Q).
  - intros Q x I. destruct (R Q x I) as (data & A & B & C). exists data.
    rewrite <- (look_entries d1' d' _ E2), <- (look_entries d1 d (src ++ [x]) E1). repeat split; try assumption.
    intro Q'. now rewrite <- (W1 Q').
Qed.

Section Installing.
Variable sudo : bool.
Variables prefix here home : path.
Variable config : bool.

Let ansak : path := prefix ++ ["include"; "ansak"].
Let sources : path := here ++ ["interface"].
Let built : path := here ++ product_dir config.

Lemma sources_apart : sources <> ansak.
Proof.
  unfold sources, ansak. change ["include"; "ansak"] with (["include"] ++ ["ansak"]). rewrite app_assoc.
  intro E. apply app_inj_tail in E. destruct E as (_ & E). discriminate.
Qed.

Lemma built_apart : built <> prefix ++ ["lib"].
Proof.
  unfold built, product_dir. intro E. destruct config.
  - change ["build"; "Release"] with (["build"] ++ ["Release"]) in E. rewrite app_assoc in E.
    apply app_inj_tail in E. destruct E as (_ & E). discriminate.
  - apply app_inj_tail in E. destruct E as (_ & E). discriminate.
Qed.

Lemma built_ansak : built <> ansak.
Proof.
  unfold built, ansak, product_dir. intro E. change ["include"; "ansak"] with (["include"] ++ ["ansak"]) in E.
  rewrite app_assoc in E. destruct config.
  - change ["build"; "Release"] with (["build"] ++ ["Release"]) in E. rewrite app_assoc in E.
    apply app_inj_tail in E. destruct E as (_ & E). discriminate.
  - apply app_inj_tail in E. destruct E as (_ & E). discriminate.
Qed.

Lemma header_path : forall h, prefix ++ header_file h = ansak ++ [h].
Proof. intro h. unfold ansak. now rewrite <- app_assoc. Qed.

Lemma archive_path : prefix ++ archive_file = (prefix ++ ["lib"]) ++ [archive].
Proof. now rewrite <- app_assoc. Qed.

Lemma source_path : forall h, here ++ ["interface"; h] = sources ++ [h].
Proof. intro h. unfold sources. now rewrite <- app_assoc. Qed.

(** The four lines, one after the other. *)
Inductive stage (d : disk) (r : outcome unit) (d' : disk) : Prop :=
  | stage1 : forall e, r = Raised e -> as_root sudo (mkdir_p ansak) d = (r, d') -> stage d r d'
  | stage2 : forall d1 e, r = Raised e -> as_root sudo (mkdir_p ansak) d = (Returned tt, d1) ->
      as_root sudo (cp (map (fun x => sources ++ [x]) (expand "hxx" d1 sources)) ansak) d1 = (r, d') -> stage d r d'
  | stage3 : forall d1 d2 e, r = Raised e -> as_root sudo (mkdir_p ansak) d = (Returned tt, d1) ->
      as_root sudo (cp (map (fun x => sources ++ [x]) (expand "hxx" d1 sources)) ansak) d1 = (Returned tt, d2) ->
      as_root sudo (mkdir_p (prefix ++ ["lib"])) d2 = (r, d') -> stage d r d'
  | stage4 : forall d1 d2 d3, as_root sudo (mkdir_p ansak) d = (Returned tt, d1) ->
      as_root sudo (cp (map (fun x => sources ++ [x]) (expand "hxx" d1 sources)) ansak) d1 = (Returned tt, d2) ->
      as_root sudo (mkdir_p (prefix ++ ["lib"])) d2 = (Returned tt, d3) ->
      as_root sudo (cp (map (fun x => built ++ [x]) [archive]) (prefix ++ ["lib"])) d3 = (r, d') -> stage d r d'.

Lemma install_stages : forall d r d', make_install sudo prefix here config d = (r, d') -> stage d r d'.
Proof.
  intros d r d' H. unfold make_install in H.
  fold ansak in H. fold sources in H. unfold andthen at 1 in H.
  destruct (as_root sudo (mkdir_p ansak) d) as [[[]|e] d1] eqn:A.
  2: { injection H as <- <-. now apply stage1 with e. }
  unfold andthen at 1 in H. cbn beta in H.
  replace (map (fun x => here ++ ["interface"; x]) (expand "hxx" d1 sources))
    with (map (fun x => sources ++ [x]) (expand "hxx" d1 sources)) in H
    by (apply map_ext; intro; symmetry; apply source_path).
  destruct (as_root sudo (cp _ ansak) d1) as [[[]|e] d2] eqn:B.
  2: { injection H as <- <-. now apply (stage2 d _ _ d1 e). }
  unfold andthen at 1 in H. destruct (as_root sudo (mkdir_p (prefix ++ ["lib"])) d2) as [[[]|e] d3] eqn:C.
  2: { injection H as <- <-. now apply (stage3 d _ _ d1 d2 e). }
  apply (stage4 d _ _ d1 d2 d3); try assumption. cbn [map]. unfold built.
  rewrite <- app_assoc. exact H.
Qed.

Lemma names_before : forall d d1 x, grown d d1 -> In x (expand "hxx" d1 sources) ->
  forall data, look d1 (sources ++ [x]) = Some (File data) -> look d (here ++ ["interface"; x]) <> None.
Proof.
  intros d d1 x G _ data E. rewrite source_path. rewrite (grown_file _ _ _ _ G E). discriminate.
Qed.

Theorem install_keeps_unix : forall d r d', make_install sudo prefix here config d = (r, d') ->
  untouched_but (installation prefix here d) d d' /\
  forall p, look d p = Some Dir -> look d' p = Some Dir.
Proof.
  intros d r d' H. apply install_stages in H.
  assert (X : writable d' = writable d /\ forall p, look d' p = look d p \/
    (installation prefix here d p /\ look d p <> Some Dir)).
  { assert (M1 : forall r d1, as_root sudo (mkdir_p ansak) d = (r, d1) ->
      grown d d1 /\ (r = Returned tt -> look d1 ansak = Some Dir) /\
      forall p, look d1 p = look d p \/ (installation prefix here d p /\ look d p <> Some Dir)).
    { intros r1 d1 A. destruct (root_mkdir_p _ _ _ _ _ A) as (G & L & Q).
      split; [assumption|split; [assumption|]]. intro p.
      destruct (L p) as [|(E & _ & K & _)]; [now left|right]. split; [now left|congruence]. }
    assert (M2 : forall d1 r d2, grown d d1 -> look d1 ansak = Some Dir ->
      (forall p, look d1 p = look d p \/ (installation prefix here d p /\ look d p <> Some Dir)) ->
      as_root sudo (cp (map (fun x => sources ++ [x]) (expand "hxx" d1 sources)) ansak) d1 = (r, d2) ->
      writable d2 = writable d /\ look d2 ansak = Some Dir /\
      forall p, look d2 p = look d p \/ (installation prefix here d p /\ look d p <> Some Dir)).
    { intros d1 r2 d2 G A1 L1 B.
      destruct (root_copies _ _ _ _ _ _ _ sources_apart A1 (expand_nodup _ _ _) (expand_not_nil _ _ _) B)
        as (W & L & _).
      split; [rewrite W; apply G|]. split.
      - destruct (L ansak) as [E|(x & data & _ & E & _)]; [congruence|].
        rewrite <- (app_nil_r ansak) in E at 1. apply app_inv_head in E. discriminate.
      - intro p. destruct (L p) as [E|(x & data & I & -> & E & _ & _ & K)]; [rewrite E; apply L1|right]. split.
        + right. right. right. exists x. split; [now apply (names_before d d1 x G I data)|symmetry; apply header_path].
        + intro F. apply K. now apply (grown_kept d). }
    assert (M3 : forall d2 r d3, writable d2 = writable d ->
      (forall p, look d2 p = look d p \/ (installation prefix here d p /\ look d p <> Some Dir)) ->
      as_root sudo (mkdir_p (prefix ++ ["lib"])) d2 = (r, d3) ->
      writable d3 = writable d /\ (r = Returned tt -> look d3 (prefix ++ ["lib"]) = Some Dir) /\
      forall p, look d3 p = look d p \/ (installation prefix here d p /\ look d p <> Some Dir)).
    { intros d2 r3 d3 W L C. destruct (root_mkdir_p _ _ _ _ _ C) as ((W3 & _) & L3 & Q).
      split; [congruence|split; [assumption|]]. intro p.
      destruct (L3 p) as [E|(E & _ & K & _)]; [rewrite E; apply L|].
      destruct (L p) as [E'|]; [right|now right]. split; [right; now left|congruence]. }
    destruct H as [e _ A|d1 e _ A B|d1 d2 e _ A B C|d1 d2 d3 A B C D].
    - destruct (M1 _ _ A) as (G & _ & L). split; [apply G|assumption].
    - destruct (M1 _ _ A) as (G & Q & L). destruct (M2 _ _ _ G (Q eq_refl) L B) as (W & _ & L'). now split.
    - destruct (M1 _ _ A) as (G & Q & L). destruct (M2 _ _ _ G (Q eq_refl) L B) as (W & _ & L').
      destruct (M3 _ _ _ W L' C) as (W' & _ & L''). now split.
    - destruct (M1 _ _ A) as (G & Q & L). destruct (M2 _ _ _ G (Q eq_refl) L B) as (W & _ & L').
      destruct (M3 _ _ _ W L' C) as (W' & Q' & L''). specialize (Q' eq_refl).
      assert (U : NoDup [archive]) by (repeat constructor; intros []).
      assert (V : [archive] <> []) by discriminate.
      destruct (root_copies _ _ _ _ _ _ _ built_apart Q' U V D) as (W4 & L4 & _).
      split; [congruence|]. intro p.
      destruct (L4 p) as [E|(x & data & [<-|[]] & -> & _ & _ & _ & K)]; [rewrite E; apply L''|].
      destruct (L'' ((prefix ++ ["lib"]) ++ [archive])) as [E|]; [right|now right].
      split; [right; right; left; symmetry; apply archive_path|congruence]. }
  destruct X as (W & L). split.
  - split; [assumption|]. intros p K. destruct (L p) as [|(A & _)]; [assumption|contradiction].
  - intros p E. destruct (L p) as [|(_ & A)]; congruence.
Qed.

Theorem install_done_unix : forall d d', make_install sudo prefix here config d = (Returned tt, d') ->
  (exists data, look d (built ++ [archive]) = Some (File data) /\
                look d' (prefix ++ archive_file) = Some (File data)) /\
  (forall h data, look d (here ++ ["interface"; h]) = Some (File data) ->
     hidden h = false -> ends "hxx" h = true -> look d' (prefix ++ header_file h) = Some (File data)).
Proof.
  intros d d' H. apply install_stages in H.
  destruct H as [e Q A|d1 e Q A B|d1 d2 e Q A B C|d1 d2 d3 A B C D]; try discriminate.
  destruct (root_mkdir_p _ _ _ _ _ A) as (G1 & L1 & Q1). specialize (Q1 eq_refl).
  destruct (root_copies _ _ _ _ _ _ _ sources_apart Q1 (expand_nodup _ _ _) (expand_not_nil _ _ _) B)
    as (W2 & L2 & R2). specialize (R2 eq_refl).
  destruct (root_mkdir_p _ _ _ _ _ C) as (G3 & L3 & Q3). specialize (Q3 eq_refl).
  assert (U : NoDup [archive]) by (repeat constructor; intros []).
  assert (V : [archive] <> []) by discriminate.
  destruct (root_copies _ _ _ _ _ _ _ built_apart Q3 U V D) as (W4 & L4 & R4). specialize (R4 eq_refl).
  split.
  - destruct (R4 archive (or_introl eq_refl)) as (data & E1 & E2 & _). exists data.
    rewrite archive_path. split; [|assumption].
    apply (grown_file d d1 _ _ G1). apply (grown_file _ _ _ _ G3) in E1.
    destruct (L2 (built ++ [archive])) as [E|(x & data' & _ & E & _)]; [congruence|].
    apply app_inj_tail in E. destruct E as (E & _). now apply built_ansak in E.
  - intros h data E N F. rewrite source_path in E. apply (grown_kept _ _ _ _ G1) in E.
    assert (I : In h (expand "hxx" d1 sources)).
    { apply expand_in, glob_true. split; [congruence|now split]. }
    destruct (R2 h I) as (data' & E1 & E2 & _).
    assert (data' = data) by congruence. subst data'.
    apply (grown_kept _ _ _ _ G3) in E2. rewrite header_path.
    destruct (L4 (ansak ++ [h])) as [E'|(x & data' & [<-|[]] & E' & _)]; [congruence|].
    apply app_inj_tail in E'. destruct E' as (E' & _). unfold ansak in E'.
    change ["include"; "ansak"] with (["include"] ++ ["ansak"]) in E'. rewrite app_assoc in E'.
    apply app_inj_tail in E'. destruct E' as (_ & E'). discriminate.
Qed.

End Installing.
