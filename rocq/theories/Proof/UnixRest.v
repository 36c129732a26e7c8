(** What a removal undoes, and what cleaning deletes. *)
From Coq Require Import ZArith List Bool String Ascii Arith Lia.
From Verif Require Import Model.Make Model.Stamps Model.Unix Spec.Install Spec.Unix.
From Verif Require Import Proof.InstallFacts Proof.InstallRest Proof.Unix Proof.UnixDone Proof.UnixUndo.
Import ListNotations.
Open Scope string_scope.
Open Scope list_scope.

Section Undo.
Variable sudo : bool.
Variables prefix here home : path.
Variable config : bool.

Let ansak : path := prefix ++ ["include"; "ansak"].
Let lib : path := prefix ++ ["lib"].
Let hs : list path :=
  map (fun h => prefix ++ ["include"; "ansak"; h]) ["string.hxx"; "string_trim.hxx"; "string_splitjoin.hxx"].

Lemma lib_short : forall s, ~ leads_to (ansak ++ s) lib.
Proof.
  intros s (t & E). unfold ansak, lib in E. apply (f_equal (@List.length string)) in E.
  rewrite !app_length in E. cbn in E. lia.
Qed.

Lemma ansak_end : forall x, ~ leads_to (ansak ++ [x]) ansak.
Proof.
  intros x (t & E). apply (f_equal (@List.length string)) in E. rewrite !app_length in E. cbn in E. lia.
Qed.

(** What an installation leaves. *)
Lemma install_exact : forall d d1, make_install sudo prefix here config d = (Returned tt, d1) ->
  writable d1 = writable d /\ look d1 ansak = Some Dir /\ look d1 lib = Some Dir /\
  forall q, look d1 q = look d q \/
    ((leads_to q ansak \/ leads_to q lib) /\ look d q = None /\ look d1 q = Some Dir /\
       (sudo = false -> writable d q = true)) \/
    (exists x data, q = ansak ++ [x] /\ look d (here ++ ["interface"; x]) = Some (File data) /\
       hidden x = false /\ ends "hxx" x = true /\
       look d1 q = Some (File data) /\ (sudo = false -> writable d q = true)) \/
    (exists data, q = lib ++ [archive] /\ look d1 q = Some (File data) /\ (sudo = false -> writable d q = true)).
Proof.
  intros d d1 H. apply install_stages in H.
  destruct H as [e Q A|a1 e Q A B|a1 a2 e Q A B C|a1 a2 a3 A B C D]; try discriminate.
  fold ansak in A, B. fold lib in C, D.
  destruct (root_mkdir_p _ _ _ _ _ A) as (G1 & L1 & Q1). specialize (Q1 eq_refl).
  destruct (root_copies _ _ _ _ _ _ _ (sources_apart prefix here) Q1 (expand_nodup _ _ _) (expand_not_nil _ _ _) B)
    as (W2 & L2 & R2). specialize (R2 eq_refl).
  destruct (root_mkdir_p _ _ _ _ _ C) as (G3 & L3 & Q3). specialize (Q3 eq_refl).
  assert (U : NoDup [archive]) by (repeat constructor; intros []).
  assert (V : [archive] <> []) by discriminate.
  destruct (root_copies _ _ _ _ _ _ _ (built_apart prefix here config) Q3 U V D) as (W4 & L4 & R4). specialize (R4 eq_refl).
  assert (WA : writable a1 = writable d) by apply G1.
  assert (WB : writable a3 = writable a2) by apply G3.
  split; [congruence|].
  assert (K : forall q, look d1 q = look d q \/
    ((leads_to q ansak \/ leads_to q lib) /\ look d q = None /\ look d1 q = Some Dir /\
       (sudo = false -> writable d q = true)) \/
    (exists x data, q = ansak ++ [x] /\ look d (here ++ ["interface"; x]) = Some (File data) /\
       hidden x = false /\ ends "hxx" x = true /\
       look d1 q = Some (File data) /\ (sudo = false -> writable d q = true)) \/
    (exists data, q = lib ++ [archive] /\ look d1 q = Some (File data) /\ (sudo = false -> writable d q = true))).
  { intro q. destruct (L4 q) as [E4|(x & data & [<-|[]] & -> & _ & E & K & _)].
    2: { right. right. right. exists data. repeat split; try assumption. intro S. rewrite <- WA, <- W2, <- WB. auto. }
    destruct (L3 q) as [E3|(N3 & D3 & K3 & Z3)].
    - rewrite E4, E3. destruct (L2 q) as [E2|(x & data & I & -> & S & E & K & _)].
      + rewrite E2. destruct (L1 q) as [E1|(N1 & D1 & K1 & Z1)]; [now left|right; left]. repeat split; auto.
      + right. right. left. exists x, data.
        rewrite <- (source_path here x) in S.
        assert (S' : look d (here ++ ["interface"; x]) = Some (File data)) by (eapply grown_file; eassumption).
        assert (P : In x (glob "hxx" a1 (here ++ ["interface"]))).
        { apply in_expand in I. destruct I as [I|(I & ->)]; [assumption|]. exfalso.
          assert (In "*hxx" (glob "hxx" a1 (here ++ ["interface"]))).
          { apply glob_true. split; [|now split]. rewrite <- app_assoc. cbn [app]. cbn [append] in S. congruence. }
          rewrite I in H. contradiction. }
        apply glob_true in P. destruct P as (_ & P1 & P2). repeat split; try assumption.
        intro F. rewrite <- WA. auto.
    - destruct (L2 q) as [E2|(x & data & I & -> & S & E & K & _)]; [|congruence].
      right. left. rewrite E4. destruct (L1 q) as [E1|(N1 & D1 & K1 & Z1)].
      + repeat split; try assumption; try congruence; [now right|]. intro F. rewrite <- WA, <- W2. auto.
      + congruence. }
  assert (X : look d1 lib = Some Dir /\ look d1 ansak = Some Dir).
  { split.
    - destruct (L4 lib) as [E|(x & data & _ & E & _)]; [congruence|].
      fold lib in E. rewrite <- (app_nil_r lib) in E at 1. apply app_inv_head in E. discriminate.
    - destruct (L4 ansak) as [E|(x & data & _ & E & _)].
      + rewrite E. apply (grown_kept _ _ _ _ G3). destruct (L2 ansak) as [E'|(x & data & _ & E' & _)]; [congruence|].
        rewrite <- (app_nil_r ansak) in E' at 1. apply app_inv_head in E'. discriminate.
      + exfalso. fold lib in E. unfold ansak, lib in E.
        change ["include"; "ansak"] with (["include"] ++ ["ansak"]) in E. rewrite app_assoc in E.
        apply app_inj_tail in E. destruct E as (E & _). apply app_inv_head in E. discriminate. }
  destruct X. split; [assumption|]. now split.
Qed.

Lemma archive_in : forall q, In q [prefix ++ ["lib"; "libansakString.a"]] <-> q = lib ++ [archive].
Proof. intro q. unfold lib. rewrite <- app_assoc. cbn. split; [intros [<-|[]]; reflexivity|intros ->; now left]. Qed.

Lemma header_ansak : forall h, prefix ++ ["include"; "ansak"; h] = ansak ++ [h].
Proof. intro h. unfold ansak. now rewrite <- app_assoc. Qed.

Definition gone (q : path) : bool :=
  existsb (same q) hs || same q (lib ++ [archive]) || same q ansak.

Lemma gone_true : forall q, gone q = true <-> In q hs \/ q = lib ++ [archive] \/ q = ansak.
Proof.
  intro q. unfold gone. rewrite !orb_true_iff, !same_true, existsb_exists. split.
  - intros [[(x & I & E)|E]|E]; try tauto. apply same_true in E. subst x. tauto.
  - intros [I|[E|E]]; try tauto. left. left. exists q. split; [assumption|apply same_refl].
Qed.

Definition spare : io unit :=
  if sudo then ret tt
  else semicolon (if_dir (prefix ++ ["include"]) (rmdir (home ++ ["include"])))
                 (if_dir (prefix ++ ["lib"]) (rmdir (home ++ ["lib"]))).

(** The first three lines, where they go well. *)
Lemma three_lines : forall d d1, sound d ->
  make_install sudo prefix here config d = (Returned tt, d1) ->
  (forall h, In h headers -> exists data, look d (here ++ ["interface"; h]) = Some (File data)) ->
  (forall h, look d (here ++ ["interface"; h]) <> None -> hidden h = false -> ends "hxx" h = true -> In h headers) ->
  look d ansak = None -> look d (lib ++ [archive]) = None ->
  exists dc, make_uninstall sudo prefix home d1 = spare dc /\ writable dc = writable d /\
    forall q, look dc q = if gone q then None else look d1 q.
Proof.
  intros d d1 S H I1 I2 N1 N2.
  destruct (install_exact _ _ H) as (W & DA & DL & L).
  destruct (install_done_unix _ _ _ _ _ _ H) as ((adata & _ & EA) & EH).
  rewrite (archive_path prefix) in EA. fold lib in EA.
  assert (FH : forall q, In q hs -> (exists data, look d1 q = Some (File data)) /\ (sudo = false -> writable d1 q = true)).
  { intros q Q. apply in_map_iff in Q. destruct Q as (h & <- & Q).
    assert (Q' : In h headers) by (cbn in Q |- *; tauto).
    destruct (I1 h Q') as (data & E).
    assert (E' : look d1 (prefix ++ ["include"; "ansak"; h]) = Some (File data)).
    { apply EH; [assumption| |]; cbn in Q; destruct Q as [<-|[<-|[<-|[]]]]; reflexivity. }
    split; [eauto|]. intro F. rewrite W. rewrite header_ansak in *.
    assert (Z : look d (ansak ++ [h]) = None).
    { apply sound_below; [assumption|congruence|discriminate]. }
    destruct (L (ansak ++ [h])) as [X|[(_ & _ & X & _)|[(x & data' & _ & _ & _ & _ & _ & X)|(data' & _ & _ & X)]]];
      [congruence|congruence|auto|auto]. }
  destruct (root_rm_succeeds sudo hs d1 (hs_nodup prefix) FH) as (da & A).
  destruct (root_rm _ _ _ _ _ A) as (WA & LA & RA). specialize (RA eq_refl).
  assert (XA : forall q, look da q = if existsb (same q) hs then None else look d1 q).
  { intro q. destruct (existsb (same q) hs) eqn:E.
    - apply existsb_exists in E. destruct E as (x & I & E). apply same_true in E. subst x. now apply RA.
    - destruct (LA q) as [|(I & _)]; [assumption|]. exfalso.
      assert (existsb (same q) hs = true) by (apply existsb_exists; exists q; split; [assumption|apply same_refl]). congruence. }
  assert (NA : existsb (same (lib ++ [archive])) hs = false).
  { apply not_true_iff_false. intro E. apply existsb_exists in E. destruct E as (x & I & E). apply same_true in E. subst x.
    apply in_map_iff in I. destruct I as (h & E & _). rewrite header_ansak in E.
    apply app_inj_tail in E. destruct E as (E & _). unfold ansak, lib in E.
    change ["include"; "ansak"] with (["include"] ++ ["ansak"]) in E. rewrite app_assoc in E.
    apply app_inj_tail in E. destruct E as (_ & E). discriminate. }
  assert (U : NoDup [prefix ++ ["lib"; "libansakString.a"]]) by (repeat constructor; intros []).
  destruct (root_rm_succeeds sudo [prefix ++ ["lib"; "libansakString.a"]] da U) as (db & B).
  { intros q Q. apply archive_in in Q. subst q. split.
    - exists adata. rewrite XA, NA. assumption.
    - intro F. rewrite WA, W.
      destruct (L (lib ++ [archive])) as [X|[(_ & _ & X & _)|[(x & data' & _ & _ & _ & _ & _ & X)|(data' & _ & _ & X)]]];
        [congruence|congruence|auto|auto]. }
  destruct (root_rm _ _ _ _ _ B) as (WB & LB & RB). specialize (RB eq_refl).
  assert (XB : forall q, look db q = if existsb (same q) hs || same q (lib ++ [archive]) then None else look d1 q).
  { intro q. destruct (same q (lib ++ [archive])) eqn:E.
    - rewrite orb_true_r. apply same_true in E. subst q. apply RB. now apply archive_in.
    - rewrite orb_false_r. rewrite <- XA. destruct (LB q) as [|(I & _)]; [assumption|]. exfalso.
      apply archive_in in I. apply same_true in I. congruence. }
  assert (NB : forall x, look db (ansak ++ [x]) = None).
  { intro x. rewrite XB. destruct (existsb (same (ansak ++ [x])) hs) eqn:E; [reflexivity|].
    destruct (same (ansak ++ [x]) (lib ++ [archive])) eqn:E'; [reflexivity|]. cbn [orb].
    assert (Z : look d (ansak ++ [x]) = None) by (apply sound_below; [assumption|congruence|discriminate]).
    destruct (L (ansak ++ [x])) as [X|[(K & _)|[(y & data & Y & F & G1 & G2 & _)|(data & Y & _)]]].
    - congruence.
    - exfalso. destruct K as [K|K]; [now apply ansak_end in K|now apply lib_short in K].
    - exfalso. apply app_inj_tail in Y. destruct Y as (_ & <-).
      assert (Q : In x headers) by (apply I2; [congruence|assumption|assumption]).
      assert (existsb (same (ansak ++ [x])) hs = true).
      { apply existsb_exists. exists (ansak ++ [x]). split; [|apply same_refl]. apply in_hs.
        exists x. split; [assumption|]. symmetry. apply header_ansak. }
      congruence.
    - apply same_false in E'. contradiction. }
  assert (AB : look db ansak = Some Dir).
  { rewrite XB. replace (existsb (same ansak) hs || same ansak (lib ++ [archive])) with false; [assumption|].
    symmetry. apply orb_false_iff. split.
    - apply not_true_iff_false. intro E. apply existsb_exists in E. destruct E as (x & I & E). apply same_true in E. subst x.
      apply in_map_iff in I. destruct I as (h & E & _). rewrite header_ansak in E.
      rewrite <- (app_nil_r ansak) in E at 2. apply app_inv_head in E. discriminate.
    - apply same_false. intro E. unfold ansak, lib in E. change ["include"; "ansak"] with (["include"] ++ ["ansak"]) in E.
      rewrite app_assoc in E. apply app_inj_tail in E. destruct E as (E & _). apply app_inv_head in E. discriminate. }
  destruct (root_rmdir_succeeds sudo ansak db AB NB) as (dc & C).
  { intro F. rewrite WB, WA, W.
    destruct (L ansak) as [X|[(_ & _ & _ & X)|[(x & data' & _ & _ & _ & _ & _ & X)|(data' & _ & _ & X)]]];
      [congruence|auto|auto|auto]. }
  assert (NN : ansak <> []) by (unfold ansak; destruct prefix; discriminate).
  destruct (root_rmdir _ _ _ _ _ NN C) as (WC & [(_ & _ & _ & LC)|(e & Q & _)]); [|discriminate].
  exists dc. split; [|split; [congruence|]].
  - unfold make_uninstall. fold hs. unfold andthen at 1. rewrite A. unfold andthen at 1. rewrite B.
    unfold andthen at 1. fold ansak. unfold if_dir at 1. apply is_dir_true in AB. rewrite AB. rewrite C. reflexivity.
  - intro q. rewrite LC, XB. unfold gone. rewrite (same_sym q ansak).
    destruct (same ansak q); [now rewrite orb_true_r|now rewrite orb_false_r].
Qed.

Lemma leads_trans : forall p q x, leads_to p (q ++ [x]) -> p = q ++ [x] \/ leads_to p q.
Proof.
  intros p q x (s & E). destruct s as [|y s] using rev_ind.
  - left. now rewrite app_nil_r in E.
  - right. exists s. rewrite app_assoc in E. apply app_inj_tail in E. tauto.
Qed.

Theorem undone_unix : forall d d1 r d2, sound d ->
  make_install sudo prefix here config d = (Returned tt, d1) ->
  (forall h, In h headers -> exists data, look d (here ++ ["interface"; h]) = Some (File data)) ->
  (forall h, look d (here ++ ["interface"; h]) <> None -> hidden h = false -> ends "hxx" h = true -> In h headers) ->
  look d (prefix ++ header_dir) = None -> look d (prefix ++ archive_file) = None ->
  make_uninstall sudo prefix home d1 = (r, d2) ->
  forall p, ~ leads_to p (prefix ++ ["include"]) -> ~ leads_to p (prefix ++ ["lib"]) ->
    (sudo = false -> p <> home ++ ["include"] /\ p <> home ++ ["lib"]) -> look d2 p = look d p.
Proof.
  intros d d1 r d2 S H I1 I2 N1 N2 K p P1 P2 P3. rewrite (archive_path prefix) in N2. fold lib in N2. change (look d ansak = None) in N1.
  destruct (three_lines d d1 S H I1 I2 N1 N2) as (dc & E & W & X).
  rewrite E in K. destruct (last_line _ _ _ _ _ _ K) as (_ & L4).
  assert (Y : look d2 p = look dc p).
  { destruct (L4 p) as [|(F & Q & _)]; [assumption|]. exfalso. destruct (P3 F). destruct Q; contradiction. }
  rewrite Y, X. destruct (gone p) eqn:G.
  - symmetry. apply gone_true in G. destruct G as [G|[->| ->]]; try assumption.
    apply in_map_iff in G. destruct G as (h & <- & _). rewrite header_ansak.
    apply sound_below; [assumption|congruence|discriminate].
  - destruct (install_exact _ _ H) as (_ & _ & _ & L).
    destruct (L p) as [X'|[(Q & _)|[(x & data & -> & F & G1 & G2 & _)|(data & -> & _)]]]; [assumption| | |].
    + exfalso. destruct Q as [Q|Q]; [|contradiction]. unfold ansak in Q.
      change ["include"; "ansak"] with (["include"] ++ ["ansak"]) in Q. rewrite app_assoc in Q.
      apply leads_trans in Q. destruct Q as [->|Q]; [|contradiction].
      assert (K' : gone ansak = true) by (apply gone_true; auto).
      rewrite <- app_assoc in G. change (gone ansak = false) in G. congruence.
    + exfalso. assert (Q : In x headers) by (apply I2; congruence).
      assert (gone (ansak ++ [x]) = true).
      { apply gone_true. left. apply in_hs. exists x. split; [assumption|]. symmetry. apply header_ansak. }
      congruence.
    + exfalso. assert (gone (lib ++ [archive]) = true) by (apply gone_true; auto). congruence.
Qed.

(** The directories on the way. *)
Lemma mkdir_below_way : forall rest top d d' a b, mkdir_below top rest d = (Returned tt, d') ->
  look d top = Some Dir -> rest = a ++ b -> look d' (top ++ a) = Some Dir.
Proof.
  induction rest as [|x rest IH]; intros top d d' a b H T E; cbn [mkdir_below] in H.
  - injection H as <-. symmetry in E. apply app_eq_nil in E. destruct E as (-> & _). now rewrite app_nil_r.
  - unfold andthen in H.
    assert (X : exists d1, (if is_dir d (top ++ [x]) then (Returned tt, d) else mkdir (top ++ [x]) d) = (Returned tt, d1) /\
      look d1 (top ++ [x]) = Some Dir /\ look d1 top = Some Dir).
    { destruct (is_dir d (top ++ [x])) eqn:D.
      - exists d. apply is_dir_true in D. now repeat split.
      - destruct (mkdir (top ++ [x]) d) as [[[]|e] d1] eqn:M; [|discriminate]. exists d1. split; [reflexivity|].
        destruct (mkdir_step _ _ _ _ M) as [(_ & (W1 & L1) & N & _)|(e & Q & _)]; [|discriminate].
        rewrite !L1, same_refl. split; [reflexivity|]. destruct (same (top ++ [x]) top); [reflexivity|assumption]. }
    destruct X as (d1 & X & D & T'). rewrite X in H. destruct a as [|y a].
    + rewrite app_nil_r. destruct (mkdir_below_any _ _ _ _ _ H) as (_ & L).
      destruct (L top) as [K|(K & _)]; congruence.
    + injection E as <- E. specialize (IH _ _ _ a b H D E). now rewrite <- app_assoc in IH.
Qed.

Lemma install_dirs : forall d d1, make_install sudo prefix here config d = (Returned tt, d1) ->
  look d1 (prefix ++ ["include"]) = Some Dir /\ look d1 (prefix ++ ["lib"]) = Some Dir.
Proof.
  intros d d1 H. split; [|now apply (install_exact d d1 H)]. apply install_stages in H.
  destruct H as [e Q A|a1 e Q A B|a1 a2 e Q A B C|a1 a2 a3 A B C D]; try discriminate.
  destruct (root_mkdir_p _ _ _ _ _ A) as (G1 & L1 & Q1). specialize (Q1 eq_refl).
  destruct (root_copies _ _ _ _ _ _ _ (sources_apart prefix here) Q1 (expand_nodup _ _ _) (expand_not_nil _ _ _) B)
    as (W2 & L2 & _).
  destruct (root_mkdir_p _ _ _ _ _ C) as (G3 & L3 & Q3). specialize (Q3 eq_refl).
  assert (U : NoDup [archive]) by (repeat constructor; intros []).
  assert (V : [archive] <> []) by discriminate.
  destruct (root_copies _ _ _ _ _ _ _ (built_apart prefix here config) Q3 U V D) as (W4 & L4 & _).
  assert (X : look a1 (prefix ++ ["include"]) = Some Dir).
  { assert (T : touches (fun _ => True) (mkdir_p (prefix ++ ["include"; "ansak"])))
      by (eapply touches_more; [|apply touches_mkdir_p]; auto).
    destruct (as_root_runs _ _ _ _ _ A T) as (e1 & e2 & E1 & M & E2 & _).
    rewrite <- (look_entries e2 a1 _ E2).
    apply (mkdir_below_way _ _ _ _ (prefix ++ ["include"]) ["ansak"] M eq_refl). now rewrite <- app_assoc. }
  destruct (L4 (prefix ++ ["include"])) as [E|(x & data & [<-|[]] & E & _)].
  - rewrite E. apply (grown_kept _ _ _ _ G3). destruct (L2 (prefix ++ ["include"])) as [E'|(x & data & _ & E' & _)]; [congruence|].
    apply (f_equal (@List.length string)) in E'. rewrite !app_length in E'. cbn in E'. lia.
  - apply (f_equal (@List.length string)) in E. rewrite !app_length in E. cbn in E. lia.
Qed.

(** With sudo the directories stay. *)
Theorem sudo_leaves : forall d d1 r d2, sudo = true ->
  make_install sudo prefix here config d = (Returned tt, d1) ->
  make_uninstall sudo prefix home d1 = (r, d2) ->
  look d2 (prefix ++ ["include"]) = Some Dir /\ look d2 (prefix ++ ["lib"]) = Some Dir.
Proof.
  intros d d1 r d2 S H K. destruct (install_dirs d d1 H) as (D1 & D2).
  destruct (uninstall_keeps_unix _ _ _ _ _ _ K) as (_ & L).
  assert (X : forall x, ~ removal prefix (prefix ++ [x])).
  { intros x [E|[(h & _ & E)|E]]; apply (f_equal (@List.length string)) in E; rewrite !app_length in E; cbn in E; lia. }
  split.
  - destruct (L (prefix ++ ["include"])) as [E|(_ & [R|(F & _)])]; [congruence|now apply X in R|congruence].
  - destruct (L (prefix ++ ["lib"])) as [E|(_ & [R|(F & _)])]; [congruence|now apply X in R|congruence].
Qed.

(** In the home directory, without sudo, all is undone. *)
Theorem undone_home : forall d d1, prefix = home -> sudo = false -> sound d ->
  make_install sudo prefix here config d = (Returned tt, d1) ->
  (forall h, In h headers -> exists data, look d (here ++ ["interface"; h]) = Some (File data)) ->
  (forall h, look d (here ++ ["interface"; h]) <> None -> hidden h = false -> ends "hxx" h = true -> In h headers) ->
  look d home = Some Dir -> look d (home ++ ["include"]) = None -> look d (home ++ ["lib"]) = None ->
  exists d2, make_uninstall sudo prefix home d1 = (Returned tt, d2) /\ forall p, look d2 p = look d p.
Proof.
  intros d d1 PH S0 S H I1 I2 DH N1 N2.
  assert (M1 : look d ansak = None).
  { unfold ansak. rewrite PH. change ["include"; "ansak"] with (["include"] ++ ["ansak"]). rewrite app_assoc.
    apply sound_below; [assumption|congruence|discriminate]. }
  assert (M2 : look d (lib ++ [archive]) = None).
  { unfold lib. rewrite PH. apply sound_below; [assumption|congruence|discriminate]. }
  destruct (three_lines d d1 S H I1 I2 M1 M2) as (dc & E & W & X).
  destruct (install_exact _ _ H) as (W1 & _ & _ & L).
  destruct (install_dirs _ _ H) as (D1 & D2).
  assert (G1 : forall x, gone (home ++ [x]) = false).
  { intro x. apply not_true_iff_false. intro G. apply gone_true in G.
    destruct G as [G|[G|G]].
    - apply in_map_iff in G. destruct G as (h & G & _). rewrite PH in G. apply app_inv_head in G. discriminate.
    - unfold lib in G. rewrite PH, <- app_assoc in G. apply app_inv_head in G. discriminate.
    - unfold ansak in G. rewrite PH in G. apply app_inv_head in G. discriminate. }
  (* what the three lines leave *)
  assert (Y : forall q, look dc q = look d q \/
    ((q = home ++ ["include"] \/ q = home ++ ["lib"]) /\ look dc q = Some Dir /\ writable d q = true)).
  { intro q. rewrite X. destruct (gone q) eqn:G.
    - left. symmetry. apply gone_true in G. destruct G as [G|[->| ->]]; try assumption.
      apply in_map_iff in G. destruct G as (h & <- & _). rewrite header_ansak.
      apply sound_below; [assumption|congruence|discriminate].
    - destruct (L q) as [X'|[(Q & Q2 & Q3 & Q4)|[(x & data & -> & F & F1 & F2 & _)|(data & -> & _)]]]; [now left| | |].
      + right. split; [|split; [assumption|auto]]. destruct Q as [Q|Q].
        * unfold ansak in Q. change ["include"; "ansak"] with (["include"] ++ ["ansak"]) in Q. rewrite app_assoc in Q.
          apply leads_trans in Q. destruct Q as [->|Q].
          { exfalso. assert (K : gone ansak = true) by (apply gone_true; auto).
            rewrite <- app_assoc in G. change (gone ansak = false) in G. congruence. }
          apply leads_trans in Q. destruct Q as [->|(s & Q)]; [left; now rewrite PH|].
          exfalso. rewrite PH in Q. destruct s as [|x s]; [rewrite app_nil_r in Q; congruence|].
          assert (look d (q ++ x :: s) = None) by (apply sound_below; [assumption|congruence|discriminate]). congruence.
        * apply leads_trans in Q. destruct Q as [->|(s & Q)]; [right; now rewrite PH|].
          exfalso. rewrite PH in Q. destruct s as [|x s]; [rewrite app_nil_r in Q; congruence|].
          assert (look d (q ++ x :: s) = None) by (apply sound_below; [assumption|congruence|discriminate]). congruence.
      + exfalso. assert (Q : In x headers) by (apply I2; congruence).
        assert (gone (ansak ++ [x]) = true).
        { apply gone_true. left. apply in_hs. exists x. split; [assumption|]. symmetry. apply header_ansak. }
        congruence.
      + exfalso. assert (gone (lib ++ [archive]) = true) by (apply gone_true; auto). congruence. }
  assert (C1 : look dc (home ++ ["include"]) = Some Dir) by (rewrite X, G1, <- PH; assumption).
  assert (C2 : look dc (home ++ ["lib"]) = Some Dir) by (rewrite X, G1, <- PH; assumption).
  assert (Z : forall n x, n = "include" \/ n = "lib" -> look dc ((home ++ [n]) ++ [x]) = None).
  { intros n x Hn. destruct (Y ((home ++ [n]) ++ [x])) as [K|(K & _)].
    - rewrite K. destruct Hn as [-> | ->]; apply sound_below; try assumption; try discriminate; congruence.
    - exfalso. rewrite <- app_assoc in K. destruct K as [K|K]; apply app_inv_head in K; discriminate. }
  assert (V : forall n, n = "include" \/ n = "lib" -> writable dc (home ++ [n]) = true).
  { intros n Hn. rewrite W. destruct (Y (home ++ [n])) as [K|(_ & _ & K)]; [|assumption].
    destruct Hn as [-> | ->]; congruence. }
  unfold spare in E. rewrite S0 in *. rewrite E.
  unfold semicolon, if_dir. rewrite PH. pose proof C1 as C1'. pose proof C2 as C2'.
  apply is_dir_true in C1'. apply is_dir_true in C2'. rewrite C1'.
  assert (R1 : rmdir (home ++ ["include"]) dc = (Returned tt, drop dc (home ++ ["include"]))).
  { unfold rmdir. rewrite C1. replace (is_empty dc (home ++ ["include"])) with true.
    - cbn [negb]. rewrite V by auto. reflexivity.
    - symmetry. apply is_empty_true. intro x. apply Z. auto. }
  rewrite R1. cbn [snd].
  assert (T : forall q, look (drop dc (home ++ ["include"])) q = if same (home ++ ["include"]) q then None else look dc q)
    by (intro q; apply look_drop, app_end_not_nil).
  assert (T2 : look (drop dc (home ++ ["include"])) (home ++ ["lib"]) = Some Dir).
  { rewrite T. destruct (same _ _) eqn:Q; [|assumption]. apply same_true, app_inv_head in Q. discriminate. }
  pose proof T2 as T2'. apply is_dir_true in T2'. rewrite T2'.
  assert (R2 : rmdir (home ++ ["lib"]) (drop dc (home ++ ["include"])) =
    (Returned tt, drop (drop dc (home ++ ["include"])) (home ++ ["lib"]))).
  { unfold rmdir. rewrite T2. replace (is_empty (drop dc (home ++ ["include"])) (home ++ ["lib"])) with true.
    - cbn [negb drop writable]. rewrite V by auto. reflexivity.
    - symmetry. apply is_empty_true. intro x. rewrite T. destruct (same _ _); [reflexivity|]. apply Z. auto. }
  rewrite R2. eexists. split; [reflexivity|].
  intro p. rewrite look_drop by apply app_end_not_nil. rewrite T.
  destruct (same (home ++ ["lib"]) p) eqn:Q1.
  { apply same_true in Q1. subst p. now symmetry. }
  destruct (same (home ++ ["include"]) p) eqn:Q2.
  { apply same_true in Q2. subst p. now symmetry. }
  apply same_false in Q1. apply same_false in Q2.
  destruct (Y p) as [K|([K|K] & _)]; [assumption|congruence|congruence].
Qed.

End Undo.

(** * clean and scrub *)

Lemma ends_nil : forall s, ends "" s = true.
Proof. induction s as [|c s IH]; [reflexivity|]. cbn. now rewrite IH. Qed.

Lemma rm_rf_done : forall p d d', p <> [] -> sound d -> rm_rf p d = (Returned tt, d') -> cleared p d d'.
Proof.
  intros p d d' N S H. apply delete_one; [assumption|assumption|]. unfold rm_rf in H. unfold is_dir.
  destruct (look d p) as [[|data]|] eqn:E.
  - assumption.
  - unfold rm_f. replace (is_dir d (parent p)) with true.
    + replace (is_file d p) with true; [exact H|]. symmetry. apply is_file_true. eauto.
    + symmetry. apply is_dir_true. destruct (exists_last N) as (q & x & ->). rewrite parent_app.
      apply (S q x). congruence.
  - unfold rm_f. replace (is_file d p) with false; [now rewrite andb_false_r|].
    symmetry. apply not_true_iff_false. intro K. apply is_file_true in K. destruct K. congruence.
Qed.

Lemma rm_rf_failed : forall p d e d', rm_rf p d = (Raised e, d') -> d' = d.
Proof.
  intros p d e d' H. unfold rm_rf in H. destruct (look d p) as [[|data]|] eqn:E; [| |discriminate].
  - unfold rmtree in H. destruct (forallb _ _); [discriminate|]. now injection H as _ <-.
  - unfold unlink in H. rewrite E in H. destruct (writable d p); [discriminate|]. now injection H as _ <-.
Qed.

Lemma rm_rf_list : forall cwd xs d r d', sound d ->
  all_of (fun x => rm_rf (cwd ++ [x])) xs d = (r, d') ->
  sound d' /\ writable d' = writable d /\
  (forall p, look d' p = look d p \/ (look d' p = None /\ exists x, In x xs /\ below (cwd ++ [x]) p = true)) /\
  (r = Returned tt -> forall x s, In x xs -> look d' (cwd ++ x :: s) = None).
Proof.
  intros cwd. induction xs as [|x xs IH]; intros d r d' S H; cbn [all_of] in H.
  - injection H as <- <-. repeat split; try assumption; [now left|]. intros _ x s [].
  - destruct (rm_rf (cwd ++ [x]) d) as [r1 d1] eqn:A. destruct (all_of _ xs d1) as [r2 d2] eqn:B.
    injection H as R <-. destruct r1 as [[]|e].
    + apply rm_rf_done in A; [|apply app_end_not_nil|assumption].
      assert (S1 : sound d1) by (eapply cleared_sound; [apply (app_end_not_nil cwd x)|eassumption|eassumption]).
      destruct A as (W1 & L1). destruct (IH _ _ _ S1 B) as (S2 & W2 & L2 & R2).
      split; [assumption|]. split; [congruence|]. split.
      * intro p. destruct (L2 p) as [E|(E & y & I & K)].
        -- rewrite E, L1. destruct (below (cwd ++ [x]) p) eqn:Q; [|now left]. right. split; [reflexivity|].
           exists x. split; [now left|assumption].
        -- right. split; [assumption|]. exists y. split; [now right|assumption].
      * intros -> y s [<-|I]; [|now apply R2].
        destruct (L2 (cwd ++ x :: s)) as [E|(E & _)]; [|assumption]. rewrite E, L1.
        replace (below (cwd ++ [x]) (cwd ++ x :: s)) with true; [reflexivity|].
        symmetry. apply below_true. exists s. now rewrite <- app_assoc.
    + apply rm_rf_failed in A. subst d1. destruct (IH _ _ _ S B) as (S2 & W2 & L2 & _).
      split; [assumption|]. split; [assumption|]. split.
      * intro p. destruct (L2 p) as [|(E & y & I & K)]; [now left|right]. split; [assumption|].
        exists y. split; [now right|assumption].
      * intros ->. discriminate.
Qed.

(** Everything but hidden names in [cwd] goes. *)
Lemma swept : forall cwd d r d', sound d ->
  all_of (fun x => rm_rf (cwd ++ [x])) (expand "" d cwd) d = (r, d') ->
  sound d' /\ writable d' = writable d /\
  (forall p, look d' p = look d p \/
     (look d' p = None /\ exists x s, hidden x = false /\ p = cwd ++ x :: s)) /\
  (r = Returned tt -> forall x s, hidden x = false -> look d' (cwd ++ x :: s) = None).
Proof.
  intros cwd d r d' S H. destruct (rm_rf_list _ _ _ _ _ S H) as (S' & W & L & R).
  split; [assumption|]. split; [assumption|]. split.
  - intro p. destruct (L p) as [|(E & x & I & K)]; [now left|]. apply below_true in K. destruct K as (s & ->).
    right. split; [assumption|]. exists x, s. rewrite <- app_assoc. split; [|reflexivity].
    apply in_expand in I. destruct I as [I|(_ & ->)]; [|reflexivity]. now apply glob_true in I.
  - intros Q x s N. destruct (look d (cwd ++ [x])) eqn:E.
    + apply (R Q). apply expand_in, glob_true. split; [congruence|]. split; [assumption|apply ends_nil].
    + assert (Z : look d (cwd ++ x :: s) = None).
      { destruct s as [|y s]; [assumption|]. change (cwd ++ x :: y :: s) with (cwd ++ [x] ++ y :: s). rewrite app_assoc.
        apply sound_below; [assumption|congruence|discriminate]. }
      destruct (L (cwd ++ x :: s)) as [F|(F & _)]; congruence.
Qed.

Theorem clean_build : forall here d r d', sound d -> look d (here ++ ["build"]) = Some Dir ->
  make_clean here d = (r, d') ->
  untouched_but (fun p => exists x s, hidden x = false /\ p = here ++ "build" :: x :: s) d d' /\
  (r = Returned tt -> forall x s, hidden x = false -> look d' (here ++ "build" :: x :: s) = None).
Proof.
  intros here d r d' S D H. unfold make_clean in H. apply is_dir_true in D. rewrite D in H.
  destruct (swept _ _ _ _ S H) as (_ & W & L & R).
  assert (X : forall x s, (here ++ ["build"]) ++ x :: s = here ++ "build" :: x :: s) by (intros; now rewrite <- app_assoc).
  split; [split; [assumption|]|].
  - intros p N. destruct (L p) as [|(_ & x & s & K & E)]; [assumption|]. exfalso. apply N. exists x, s.
    rewrite <- X. now split.
  - intros Q x s N. rewrite <- X. now apply R.
Qed.

Theorem clean_everything : forall here d d', sound d -> look d (here ++ ["build"]) <> Some Dir ->
  make_clean here d = (Returned tt, d') ->
  forall x s, hidden x = false -> look d' (here ++ x :: s) = None.
Proof.
  intros here d d' S D H. unfold make_clean in H.
  replace (is_dir d (here ++ ["build"])) with false in H.
  - now apply (swept _ _ _ _ S H).
  - symmetry. apply not_true_iff_false. intro K. apply is_dir_true in K. contradiction.
Qed.

Theorem scrub_done : forall here d d', sound d -> make_scrub here d = (Returned tt, d') ->
  (forall s, look d' (here ++ "build" :: s) = None) /\ look d' (here ++ ["config.make"]) = None /\
  untouched_but (fun p => p = here ++ ["config.make"] \/ exists s, p = here ++ "build" :: s) d d' /\ sound d'.
Proof.
  intros here d d' S H. unfold make_scrub, andthen in H.
  destruct (rm_rf (here ++ ["build"]) d) as [[[]|e] d1] eqn:A; [|discriminate].
  apply rm_rf_done in A; [|apply app_end_not_nil|assumption].
  assert (S1 : sound d1) by (eapply cleared_sound; [apply (app_end_not_nil here "build")|eassumption|eassumption]).
  destruct A as (W1 & L1).
  assert (X : writable d' = writable d1 /\ forall q, look d' q = if same (here ++ ["config.make"]) q then None else look d1 q).
  { unfold rm_f_one in H. destruct (look d1 (here ++ ["config.make"])) as [n|] eqn:E.
    - destruct (unlink_any _ _ _ _ H) as [(_ & _ & _ & W & L)|(e & Q & _)]; [now split|discriminate].
    - injection H as <-. split; [reflexivity|]. intro q. destruct (same _ q) eqn:Q; [|reflexivity].
      apply same_true in Q. now subst q. }
  destruct X as (W2 & L2).
  assert (B : forall q, below (here ++ ["build"]) q = true <-> exists s, q = here ++ "build" :: s).
  { intro q. rewrite below_true. split; intros (s & ->); exists s; now rewrite <- app_assoc. }
  split; [|split; [|split; [split; [congruence|]|]]].
  - intro s. rewrite L2, L1. destruct (same _ _); [reflexivity|].
    assert (K : below (here ++ ["build"]) (here ++ "build" :: s) = true) by (apply B; eauto). now rewrite K.
  - rewrite L2. now rewrite same_refl.
  - intros p N. rewrite L2, L1. destruct (same _ p) eqn:Q.
    { apply same_true in Q. exfalso. apply N. left. now symmetry. }
    destruct (below (here ++ ["build"]) p) eqn:K; [|reflexivity]. apply B in K. exfalso. apply N. now right.
  - intros p x K. rewrite L2 in *. destruct (same _ (p ++ [x])) eqn:Q; [congruence|].
    apply S1 in K. destruct (same (here ++ ["config.make"]) p) eqn:Q'; [|assumption].
    apply same_true in Q'. subst p. exfalso.
    (* config.make was a directory with something in it: rm -f would have failed *)
    unfold rm_f_one in H. rewrite K in H. unfold unlink in H. rewrite K in H. discriminate.
Qed.

(** Cleaning after scrubbing. *)
Theorem scrub_then_clean : forall here d d1 d2, sound d ->
  make_scrub here d = (Returned tt, d1) -> make_clean here d1 = (Returned tt, d2) ->
  forall x s, hidden x = false -> look d2 (here ++ x :: s) = None.
Proof.
  intros here d d1 d2 S H K. destruct (scrub_done _ _ _ S H) as (B & _ & _ & S1).
  apply (clean_everything here d1 d2 S1); [|assumption]. rewrite (B []). discriminate.
Qed.
