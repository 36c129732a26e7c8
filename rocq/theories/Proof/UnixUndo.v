(** Removing and cleaning with the Makefile. *)
From Coq Require Import ZArith List Bool String Ascii FinFun.
From Verif Require Import Model.Make Model.Stamps Model.Unix Spec.Install Spec.Unix.
From Verif Require Import Proof.InstallFacts Proof.InstallRest Proof.Unix Proof.UnixDone.
Import ListNotations.
Open Scope string_scope.
Open Scope list_scope.

(** * rm *)

Lemma unlink_any : forall p d r d', unlink p d = (r, d') ->
  (r = Returned tt /\ (exists data, look d p = Some (File data)) /\ writable d p = true /\
   writable d' = writable d /\ forall q, look d' q = if same p q then None else look d q) \/
  (exists e, r = Raised e /\ d' = d).
Proof.
  intros p d r d' H. unfold unlink in H. destruct (look d p) as [[|data]|] eqn:E.
  - right. injection H as <- <-. eauto.
  - destruct (writable d p) eqn:W; injection H as <- <-; [left|right; eauto].
    destruct p as [|a p]; [discriminate|]. repeat split; eauto.
    intro q. now apply look_drop.
  - right. injection H as <- <-. eauto.
Qed.

Lemma rm_any : forall ps d r d', rm ps d = (r, d') ->
  writable d' = writable d /\
  (forall q, look d' q = look d q \/ (In q ps /\ look d' q = None)) /\
  (r = Returned tt -> forall p, In p ps ->
     (exists data, look d p = Some (File data)) /\ look d' p = None /\ writable d p = true).
Proof.
  induction ps as [|p ps IH]; intros d r d' H; cbn [rm all_of] in H.
  - injection H as <- <-. split; [reflexivity|]. split; [now left|]. intros _ p [].
  - unfold rm in *. cbn [all_of] in H. destruct (unlink p d) as [r1 d1] eqn:U.
    destruct (all_of unlink ps d1) as [r2 d2] eqn:A. injection H as R <-.
    destruct (IH _ _ _ A) as (W2 & L2 & R2).
    destruct (unlink_any _ _ _ _ U) as [(-> & F & K & W1 & L1)|(e & -> & ->)].
    + split; [congruence|]. split.
      * intro q. destruct (L2 q) as [E|(I & E)].
        -- rewrite E, L1. destruct (same p q) eqn:S; [|now left]. apply same_true in S. right. split; [now left|reflexivity].
        -- right. split; [now right|assumption].
      * intros ->. specialize (R2 R). intros q [<-|I].
        -- repeat split; try assumption. destruct (L2 p) as [E|(_ & E)]; [|assumption].
           rewrite E, L1. now rewrite same_refl.
        -- destruct (R2 q I) as ((data & E) & N & K'). rewrite L1 in E. destruct (same p q); [discriminate|].
           rewrite W1 in K'. repeat split; eauto.
    + split; [assumption|]. split.
      * intro q. destruct (L2 q) as [E|(I & E)]; [now left|right; split; [now right|assumption]].
      * intros ->. discriminate.
Qed.

Lemma rm_succeeds : forall ps d, NoDup ps ->
  (forall p, In p ps -> (exists data, look d p = Some (File data)) /\ writable d p = true) ->
  exists d', rm ps d = (Returned tt, d').
Proof.
  induction ps as [|p ps IH]; intros d U H.
  - now exists d.
  - unfold rm in *. cbn [all_of]. apply NoDup_cons_iff in U. destruct U as (U1 & U2).
    destruct (H p (or_introl eq_refl)) as ((data & E) & W).
    assert (K : unlink p d = (Returned tt, drop d p)) by (unfold unlink; now rewrite E, W).
    rewrite K. destruct (IH (drop d p) U2) as (d' & E').
    + intros q I. destruct (H q (or_intror I)) as ((data' & E') & W'). split; [|exact W'].
      exists data'. destruct p as [|a p]; [discriminate|]. rewrite look_drop by discriminate.
      destruct (same _ q) eqn:S; [|assumption]. apply same_true in S. subst q. contradiction.
    + exists d'. now rewrite E'.
Qed.

Lemma touches_rm : forall ps, touches (fun q => In q ps) (rm ps).
Proof.
  intros ps d r d' H. destruct (rm_any _ _ _ _ H) as (W & L & _). split; [assumption|].
  intro q. destruct (L q) as [|(I & _)]; auto.
Qed.

Lemma root_rm : forall root ps d r d', as_root root (rm ps) d = (r, d') ->
  writable d' = writable d /\
  (forall q, look d' q = look d q \/ (In q ps /\ look d' q = None)) /\
  (r = Returned tt -> forall p, In p ps -> (exists data, look d p = Some (File data)) /\ look d' p = None).
Proof.
  intros root ps d r d' H.
  assert (T : touches (fun _ => True) (rm ps)) by (eapply touches_more; [|apply touches_rm]; auto).
  destruct (as_root_runs _ _ _ _ _ H T) as (d1 & d1' & E1 & M & E2 & W & _).
  destruct (rm_any _ _ _ _ M) as (_ & L & R). split; [assumption|]. split.
  - intro q. rewrite <- (look_entries d1' d' q E2), <- (look_entries d1 d q E1). apply L.
  - intros Q p I. destruct (R Q p I) as (A & B & _).
    rewrite <- (look_entries d1' d' p E2), <- (look_entries d1 d p E1). now split.
Qed.

Lemma root_rm_succeeds : forall root ps d, NoDup ps ->
  (forall p, In p ps -> (exists data, look d p = Some (File data)) /\ (root = false -> writable d p = true)) ->
  exists d', as_root root (rm ps) d = (Returned tt, d').
Proof.
  intros root ps d U H. unfold as_root. destruct root.
  - set (d1 := {| entries := entries d; writable := fun _ => true |}).
    destruct (rm_succeeds ps d1 U) as (d' & E).
    + intros p I. destruct (H p I) as ((data & E) & _). split; [|reflexivity]. exists data. rewrite <- E. now apply look_entries.
    + rewrite E. eauto.
  - apply rm_succeeds; [assumption|]. intros p I. destruct (H p I) as (A & B). auto.
Qed.

Lemma rmdir_any : forall p d r d', p <> [] -> rmdir p d = (r, d') ->
  (r = Returned tt /\ look d p = Some Dir /\ (forall x, look d (p ++ [x]) = None) /\
   writable d' = writable d /\ forall q, look d' q = if same p q then None else look d q) \/
  (exists e, r = Raised e /\ d' = d).
Proof.
  intros p d r d' N H. unfold rmdir in H. destruct (look d p) as [[|data]|] eqn:E;
    try (injection H as <- <-; right; eauto; fail).
  destruct (is_empty d p) eqn:K; cbn [negb] in H; [|injection H as <- <-; right; eauto].
  destruct (writable d p); injection H as <- <-; [left|right; eauto].
  repeat split; try assumption; [now apply is_empty_true|]. intro q. now apply look_drop.
Qed.

Lemma root_rmdir : forall root p d r d', p <> [] -> as_root root (rmdir p) d = (r, d') ->
  writable d' = writable d /\
  ((r = Returned tt /\ look d p = Some Dir /\ (forall x, look d (p ++ [x]) = None) /\
    forall q, look d' q = if same p q then None else look d q) \/
   (exists e, r = Raised e /\ forall q, look d' q = look d q)).
Proof.
  intros root p d r d' N H.
  assert (T : touches (fun _ => True) (rmdir p)) by (eapply touches_more; [|now apply touches_rmdir]; auto).
  destruct (as_root_runs _ _ _ _ _ H T) as (d1 & d1' & E1 & M & E2 & W & _).
  split; [assumption|]. destruct (rmdir_any _ _ _ _ N M) as [(-> & A & B & _ & L)|(e & -> & ->)].
  - left. split; [reflexivity|]. rewrite <- (look_entries d1 d p E1). split; [assumption|]. split.
    + intro x. rewrite <- (look_entries d1 d _ E1). apply B.
    + intro q. rewrite <- (look_entries d1' d' q E2), <- (look_entries d1 d q E1). apply L.
  - right. exists e. split; [reflexivity|]. intro q.
    rewrite <- (look_entries d1 d' q E2). now apply look_entries.
Qed.

Lemma root_rmdir_succeeds : forall root p d, look d p = Some Dir -> (forall x, look d (p ++ [x]) = None) ->
  (root = false -> writable d p = true) -> exists d', as_root root (rmdir p) d = (Returned tt, d').
Proof.
  intros root p d E B K. unfold as_root, rmdir. destruct root.
  - set (d1 := {| entries := entries d; writable := fun _ => true |}).
    rewrite (look_entries d1 d p eq_refl), E.
    assert (Q : is_empty d1 p = true).
    { apply is_empty_true. intro x. rewrite (look_entries d1 d _ eq_refl). apply B. }
    rewrite Q. cbn. eauto.
  - rewrite E. apply is_empty_true in B. rewrite B. cbn [negb]. rewrite K by reflexivity. eauto.
Qed.

Section Removing.
Variable sudo : bool.
Variables prefix here home : path.
Variable config : bool.

Let hs : list path :=
  map (fun h => prefix ++ ["include"; "ansak"; h]) ["string.hxx"; "string_trim.hxx"; "string_splitjoin.hxx"].

Lemma in_hs : forall q, In q hs <-> exists h, In h headers /\ q = prefix ++ header_file h.
Proof.
  intro q. unfold hs. rewrite in_map_iff. split.
  - intros (h & <- & I). exists h. split; [cbn in I |- *; tauto|reflexivity].
  - intros (h & I & ->). exists h. split; [reflexivity|cbn in I |- *; tauto].
Qed.

Lemma hs_nodup : NoDup hs.
Proof.
  unfold hs. apply Injective_map_NoDup.
  - intros a b E. apply app_inv_head in E. congruence.
  - repeat constructor; cbn; intuition discriminate.
Qed.

Definition spare_homes (p : path) : Prop := p = home ++ ["include"] \/ p = home ++ ["lib"].

Lemma last_line : forall d r d',
  (if sudo then ret tt
   else semicolon (if_dir (prefix ++ ["include"]) (rmdir (home ++ ["include"])))
                  (if_dir (prefix ++ ["lib"]) (rmdir (home ++ ["lib"])))) d = (r, d') ->
  writable d' = writable d /\
  forall q, look d' q = look d q \/ (sudo = false /\ spare_homes q /\ look d' q = None).
Proof.
  intros d r d' H. destruct sudo.
  - injection H as <- <-. split; [reflexivity|now left].
  - unfold semicolon in H.
    assert (S : forall a x d r d', if_dir a (rmdir (home ++ [x])) d = (r, d') ->
      writable d' = writable d /\ forall q, look d' q = look d q \/ (q = home ++ [x] /\ look d' q = None)).
    { clear. intros a x d r d' H. unfold if_dir in H. destruct (is_dir d a).
      - destruct (rmdir_any _ _ _ _ (app_end_not_nil home x) H) as [(_ & _ & _ & W & L)|(e & _ & ->)].
        + split; [assumption|]. intro q. rewrite L. destruct (same _ q) eqn:E; [|now left].
          apply same_true in E. right. now split.
        + split; [reflexivity|now left].
      - injection H as <- <-. split; [reflexivity|now left]. }
    destruct (if_dir (prefix ++ ["include"]) (rmdir (home ++ ["include"])) d) as [r1 d1] eqn:A. cbn [snd] in H.
    destruct (S _ _ _ _ _ A) as (W1 & L1). destruct (S _ _ _ _ _ H) as (W2 & L2).
    split; [congruence|]. intro q. destruct (L2 q) as [E|(-> & E)].
    + destruct (L1 q) as [E1|(-> & E1)]; [left; congruence|right]. repeat split; [now left|congruence].
    + right. repeat split; [now right|assumption].
Qed.

Theorem uninstall_keeps_unix : forall d r d', make_uninstall sudo prefix home d = (r, d') ->
  writable d' = writable d /\
  forall p, look d' p = look d p \/
    (look d' p = None /\ (removal prefix p \/ (sudo = false /\ spare_homes p))).
Proof.
  intros d r d' H. unfold make_uninstall in H. fold hs in H. unfold andthen at 1 in H.
  destruct (as_root sudo (rm hs) d) as [r1 d1] eqn:A. destruct (root_rm _ _ _ _ _ A) as (W1 & L1 & _).
  assert (K1 : forall p, look d1 p = look d p \/ (look d1 p = None /\ removal prefix p)).
  { intro p. destruct (L1 p) as [|(I & E)]; [now left|right]. split; [assumption|]. apply in_hs in I. right. now left. }
  destruct r1 as [[]|e].
  2: { injection H as <- <-. split; [assumption|]. intro p. destruct (K1 p) as [|(E & R)]; auto. }
  unfold andthen at 1 in H.
  destruct (as_root sudo (rm [prefix ++ ["lib"; "libansakString.a"]]) d1) as [r2 d2] eqn:B.
  destruct (root_rm _ _ _ _ _ B) as (W2 & L2 & _).
  assert (K2 : forall p, look d2 p = look d p \/ (look d2 p = None /\ removal prefix p)).
  { intro p. destruct (L2 p) as [E|([<-|[]] & E)]; [rewrite E; apply K1|right]. split; [assumption|]. now left. }
  destruct r2 as [[]|e].
  2: { injection H as <- <-. split; [congruence|]. intro p. destruct (K2 p) as [|(E & R)]; auto. }
  unfold andthen at 1 in H. unfold if_dir at 1 in H.
  assert (S3 : exists r3 d3, (if is_dir d2 (prefix ++ ["include"; "ansak"])
      then as_root sudo (rmdir (prefix ++ ["include"; "ansak"])) d2 else (Returned tt, d2)) = (r3, d3) /\
      writable d3 = writable d /\ (forall p, look d3 p = look d p \/ (look d3 p = None /\ removal prefix p))).
  { destruct (is_dir d2 (prefix ++ ["include"; "ansak"])).
    - destruct (as_root sudo (rmdir (prefix ++ ["include"; "ansak"])) d2) as [r3 d3] eqn:C.
      exists r3, d3. split; [reflexivity|].
      assert (N : prefix ++ ["include"; "ansak"] <> []) by (destruct prefix; discriminate).
      destruct (root_rmdir _ _ _ _ _ N C) as (W3 & [(_ & _ & _ & L3)|(e & _ & L3)]); (split; [congruence|]); intro p; rewrite L3.
      + destruct (same _ p) eqn:E; [|apply K2]. apply same_true in E. right. split; [reflexivity|].
        right. right. now symmetry.
      + apply K2.
    - exists (Returned tt), d2. split; [reflexivity|]. split; [congruence|apply K2]. }
  destruct S3 as (r3 & d3 & E3 & W3 & K3). rewrite E3 in H. destruct r3 as [[]|e].
  2: { injection H as <- <-. split; [assumption|]. intro p. destruct (K3 p) as [|(E & R)]; auto. }
  destruct (last_line _ _ _ H) as (W4 & L4). split; [congruence|].
  intro p. destruct (L4 p) as [E|(S & Q & E)]; [|right; auto].
  rewrite E. destruct (K3 p) as [|(E' & R)]; auto.
Qed.

Theorem uninstall_done_unix : forall d d', make_uninstall sudo prefix home d = (Returned tt, d') ->
  look d' (prefix ++ archive_file) = None /\
  (forall h, In h headers -> look d' (prefix ++ header_file h) = None) /\
  look d' (prefix ++ header_dir) <> Some Dir.
Proof.
  intros d d' H. unfold make_uninstall in H. fold hs in H. unfold andthen at 1 in H.
  destruct (as_root sudo (rm hs) d) as [[[]|e] d1] eqn:A; [|discriminate].
  destruct (root_rm _ _ _ _ _ A) as (W1 & L1 & R1). specialize (R1 eq_refl).
  unfold andthen at 1 in H.
  destruct (as_root sudo (rm [prefix ++ ["lib"; "libansakString.a"]]) d1) as [[[]|e] d2] eqn:B; [|discriminate].
  destruct (root_rm _ _ _ _ _ B) as (W2 & L2 & R2). specialize (R2 eq_refl).
  assert (N : prefix ++ ["include"; "ansak"] <> []) by (destruct prefix; discriminate).
  unfold andthen at 1 in H. unfold if_dir at 1 in H.
  assert (S3 : exists d3, (if is_dir d2 (prefix ++ ["include"; "ansak"])
      then as_root sudo (rmdir (prefix ++ ["include"; "ansak"])) d2 else (Returned tt, d2)) = (Returned tt, d3) /\
      (forall p, look d3 p = look d2 p \/ look d3 p = None) /\ look d3 (prefix ++ header_dir) <> Some Dir).
  { destruct (is_dir d2 (prefix ++ ["include"; "ansak"])) eqn:D.
    - destruct (as_root sudo (rmdir (prefix ++ ["include"; "ansak"])) d2) as [[[]|e] d3] eqn:C; [|discriminate].
      exists d3. split; [reflexivity|].
      destruct (root_rmdir _ _ _ _ _ N C) as (_ & [(_ & _ & _ & L3)|(e & Q & _)]); [|discriminate]. split.
      + intro p. rewrite L3. destruct (same _ p); [now right|now left].
      + rewrite L3. unfold header_dir. rewrite same_refl. discriminate.
    - exists d2. split; [reflexivity|]. split; [now left|]. intro E. apply is_dir_true in E. unfold header_dir in E. congruence. }
  destruct S3 as (d3 & E3 & L3 & D3). rewrite E3 in H.
  destruct (last_line _ _ _ H) as (_ & L4).
  assert (Z : forall p, look d2 p = None -> look d' p = None).
  { intros p E. destruct (L4 p) as [F|(_ & _ & F)]; [|assumption]. destruct (L3 p); congruence. }
  split; [|split].
  - apply Z. now apply (R2 (prefix ++ ["lib"; "libansakString.a"]) (or_introl eq_refl)).
  - intros h I. apply Z. destruct (R1 (prefix ++ header_file h)) as (_ & E); [apply in_hs; eauto|].
    destruct (L2 (prefix ++ header_file h)) as [F|(_ & F)]; congruence.
  - destruct (L4 (prefix ++ header_dir)) as [F|(_ & _ & F)]; congruence.
Qed.

(** A header that is missing stops it before the library. *)
Theorem uninstall_stuck : forall d r d' h, make_uninstall sudo prefix home d = (r, d') ->
  In h headers -> (forall data, look d (prefix ++ header_file h) <> Some (File data)) ->
  (exists e, r = Raised e) /\
  forall p, look d' p = look d p \/ exists h, In h headers /\ p = prefix ++ header_file h.
Proof.
  intros d r d' h H I N. unfold make_uninstall in H. fold hs in H. unfold andthen at 1 in H.
  destruct (as_root sudo (rm hs) d) as [r1 d1] eqn:A.
  destruct (root_rm _ _ _ _ _ A) as (W1 & L1 & R1). destruct r1 as [[]|e].
  - destruct (R1 eq_refl (prefix ++ header_file h)) as ((data & E) & _); [apply in_hs; eauto|].
    now apply N in E.
  - injection H as <- <-. split; [eauto|]. intro p. destruct (L1 p) as [|(J & _)]; [now left|right].
    now apply in_hs.
Qed.

End Removing.
