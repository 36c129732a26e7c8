(** Facts about the scripts for Windows. *)
From Coq Require Import ZArith List Bool String Ascii Lia.
From Verif Require Import Model.Make Spec.Install.
Import ListNotations.
Open Scope string_scope.
Open Scope list_scope.

(** * The disk *)

Lemma same_true : forall a b, same a b = true <-> a = b.
Proof. intros a b. unfold same. destruct (list_eq_dec string_dec a b); split; congruence. Qed.

Lemma same_refl : forall a, same a a = true.
Proof. intro a. now apply same_true. Qed.

Lemma same_false : forall a b, same a b = false <-> a <> b.
Proof. intros a b. unfold same. destruct (list_eq_dec string_dec a b); split; congruence. Qed.

Lemma same_sym : forall a b, same a b = same b a.
Proof.
  intros a b. destruct (same a b) eqn:E; symmetry.
  - apply same_true in E. subst. apply same_refl.
  - apply same_false in E. apply same_false. congruence.
Qed.

Lemma same_app : forall p a b, same (p ++ a) (p ++ b) = same a b.
Proof.
  intros p a b. destruct (same a b) eqn:E.
  - apply same_true in E. subst. apply same_refl.
  - apply same_false in E. apply same_false. intro F. apply app_inv_head in F. contradiction.
Qed.

Lemma find_without : forall l p q,
  find_in (without l p) q = if same p q then None else find_in l q.
Proof.
  induction l as [|[r n] l IH]; intros p q.
  - cbn. now destruct (same p q).
  - unfold without. cbn [filter fst]. fold (without l p).
    destruct (same r p) eqn:E; cbn [negb find_in].
    + rewrite IH. apply same_true in E. subst r. now destruct (same p q).
    + destruct (same r q) eqn:F; [|apply IH].
      destruct (same p q) eqn:G; [|reflexivity].
      apply same_true in F, G. subst. rewrite same_refl in E. discriminate.
Qed.

Lemma look_put : forall d p n q, p <> [] ->
  look (put d p n) q = if same p q then Some n else look d q.
Proof.
  intros d p n q Hp. destruct q as [|a q].
  - destruct (same p []) eqn:E; [apply same_true in E; contradiction|reflexivity].
  - cbn [look put entries find_in]. rewrite find_without. now destruct (same p (a :: q)).
Qed.

Lemma look_drop : forall d p q, p <> [] ->
  look (drop d p) q = if same p q then None else look d q.
Proof.
  intros d p q Hp. destruct q as [|a q].
  - destruct (same p []) eqn:E; [apply same_true in E; contradiction|reflexivity].
  - cbn [look drop entries]. apply find_without.
Qed.

Lemma app_end_not_nil : forall (p : path) x, p ++ [x] <> [].
Proof. intros p x E. destruct p; discriminate. Qed.

Lemma parent_app : forall p x, parent (p ++ [x]) = p.
Proof. intros. apply removelast_last. Qed.

Lemma in_find : forall l p n, In (p, n) l -> find_in l p <> None.
Proof.
  induction l as [|[q m] l IH]; intros p n H; [easy|].
  cbn. destruct (same q p) eqn:E; [discriminate|].
  destruct H as [H|H]; [|eapply IH; eassumption].
  injection H as -> ->. rewrite same_refl in E. discriminate.
Qed.

Lemma find_in_in : forall l p n, find_in l p = Some n -> In (p, n) l.
Proof.
  induction l as [|[q m] l IH]; intros p n H; [easy|].
  cbn in H. destruct (same q p) eqn:E.
  - apply same_true in E. left. congruence.
  - right. now apply IH.
Qed.

Lemma is_empty_true : forall d p,
  is_empty d p = true <-> forall x, look d (p ++ [x]) = None.
Proof.
  intros d p. unfold is_empty. split.
  - intros H x. apply negb_true_iff in H.
    destruct (look d (p ++ [x])) as [n|] eqn:E; [exfalso|reflexivity].
    assert (F : find_in (entries d) (p ++ [x]) = Some n).
    { unfold look in E. destruct (p ++ [x]) eqn:G; [destruct p; discriminate|assumption]. }
    apply find_in_in in F.
    assert (G : existsb (child_of p) (entries d) = true).
    { apply existsb_exists. exists (p ++ [x], n). split; [assumption|].
      unfold child_of. cbn [fst]. destruct (p ++ [x]) eqn:G; [destruct p; discriminate|].
      rewrite <- G, parent_app. apply same_refl. }
    congruence.
  - intro H. apply negb_true_iff. destruct (existsb (child_of p) (entries d)) eqn:E; [exfalso|reflexivity].
    apply existsb_exists in E. destruct E as ((q & n) & Hin & E).
    unfold child_of in E. cbn [fst] in E. destruct q as [|a q]; [discriminate|].
    apply same_true in E. unfold parent in E.
    pose proof (app_removelast_last "" (l := a :: q) ltac:(discriminate)) as S.
    rewrite E in S. specialize (H (last (a :: q) "")). rewrite <- S in H.
    cbn [look] in H. eapply in_find; eassumption.
Qed.

Lemma is_dir_true : forall d p, is_dir d p = true <-> look d p = Some Dir.
Proof. intros. unfold is_dir. destruct (look d p) as [[|]|]; split; congruence. Qed.

Lemma is_file_true : forall d p, is_file d p = true <-> exists data, look d p = Some (File data).
Proof.
  intros. unfold is_file. destruct (look d p) as [[|data]|]; split;
    try congruence; try (intros (x & E); congruence). intros _. eauto.
Qed.

(** * The steps, as changes of what is seen *)

(** [d'] is [d] with [v] at [p]. *)
Definition set_at (d : disk) (p : path) (v : option node) (d' : disk) : Prop :=
  writable d' = writable d /\
  forall q, look d' q = if same p q then v else look d q.

Lemma put_set : forall d p n, p <> [] -> set_at d p (Some n) (put d p n).
Proof. intros. split; [reflexivity|]. intro q. now apply look_put. Qed.

Lemma drop_set : forall d p, p <> [] -> set_at d p None (drop d p).
Proof. intros. split; [reflexivity|]. intro q. now apply look_drop. Qed.

(** What a step that may fail does to the disk: nothing, or one change. *)
Lemma mkdir_step : forall d p r d', mkdir p d = (r, d') ->
  (r = Returned tt /\ set_at d p (Some Dir) d' /\ look d p = None
     /\ look d (parent p) = Some Dir /\ writable d p = true) \/
  (exists e, r = Raised e /\ d' = d /\
     (e = FileExists -> look d p <> None) /\
     (look d p = None -> look d (parent p) = Some Dir -> writable d p = false /\ e = Denied)).
Proof.
  intros d p r d' H. unfold mkdir in H.
  destruct (look d p) as [n|] eqn:L.
  - injection H as <- <-. right. eexists. repeat split; congruence.
  - destruct (negb (is_dir d (parent p))) eqn:D.
    + injection H as <- <-. right. eexists. repeat split; try congruence;
        apply negb_true_iff in D; apply is_dir_true in H0; congruence.
    + apply negb_false_iff in D. apply is_dir_true in D.
      destruct (writable d p) eqn:W; cbn [negb] in H; injection H as <- <-.
      * left. repeat split; try assumption; try reflexivity.
        intro q. apply look_put. intros ->. cbn in L. discriminate.
      * right. eexists. repeat split; congruence.
Qed.

Lemma each_app : forall A (f : A -> io unit) l m d,
  each f (l ++ m) d = andthen (each f l) (fun _ => each f m) d.
Proof.
  induction l as [|a l IH]; intros m d; [reflexivity|].
  cbn. unfold andthen. destruct (f a d) as [[u|e] d1]; [|reflexivity]. apply IH.
Qed.

(** ** create_dirs *)

Lemma create_dirs_zero : forall ds d d', create_dirs ds d = (Returned 0%Z, d') ->
  writable d' = writable d /\
  (forall p, look d' p = if existsb (same p) ds then Some Dir else look d p) /\
  (forall p, In p ds -> (look d p = None /\ writable d p = true) \/ look d p = Some Dir).
Proof.
  induction ds as [|q ds IH]; intros d d' H.
  - cbn in H. injection H as <-. repeat split. easy.
  - cbn [create_dirs] in H. destruct (mkdir q d) as [r d1] eqn:M.
    pose proof (mkdir_step _ _ _ _ M) as S.
    destruct S as [(-> & (Sw & Sl) & N & P & W)|(e & -> & -> & Ex & _)].
    + apply IH in H. destruct H as (Hw & Hl & Ha). repeat split.
      * congruence.
      * intro p. rewrite Hl, Sl. cbn [existsb]. rewrite (same_sym p q).
        destruct (same q p), (existsb (same p) ds); reflexivity.
      * intros p [<-|Hin]; [now left|].
        specialize (Ha p Hin). rewrite Sl, Sw in Ha. destruct (same q p) eqn:E.
        -- apply same_true in E. subst p. now left.
        -- assumption.
    + destruct e; try discriminate.
      destruct (negb (is_dir d q)) eqn:D; [discriminate|].
      apply negb_false_iff, is_dir_true in D.
      apply IH in H. destruct H as (Hw & Hl & Ha). repeat split; [assumption| |].
      * intro p. rewrite Hl. cbn [existsb]. rewrite (same_sym p q).
        destruct (same q p) eqn:E; [|reflexivity]. apply same_true in E. subst.
        cbn. rewrite D. now destruct (existsb (same p) ds).
      * intros p [<-|Hin]; [now right|]. now apply Ha.
Qed.

(** Whatever comes of it, only the directories asked for can have appeared. *)
Lemma create_dirs_any : forall ds d r d', create_dirs ds d = (r, d') ->
  writable d' = writable d /\
  forall p, look d' p = look d p \/
            (In p ds /\ look d p = None /\ look d' p = Some Dir).
Proof.
  induction ds as [|q ds IH]; intros d r d' H.
  - cbn in H. injection H as <- <-. split; [reflexivity|]. now left.
  - cbn [create_dirs] in H. destruct (mkdir q d) as [r1 d1] eqn:M.
    destruct (mkdir_step _ _ _ _ M) as [(-> & (Sw & Sl) & N & P & W)|(e & -> & -> & _)].
    + apply IH in H. destruct H as (Hw & Hl). split; [congruence|].
      intro p. specialize (Hl p). rewrite Sl in Hl.
      destruct (same q p) eqn:E.
      * apply same_true in E. subst p. right.
        repeat split; [now left|assumption|]. destruct Hl as [Hl|(_ & A & _)]; congruence.
      * destruct Hl as [Hl|(A & B & C)]; [now left|]. right. repeat split; try assumption. now right.
    + assert (K : (r = r /\ d' = d) \/ create_dirs ds d = (r, d')).
      { destruct e; try (left; split; [reflexivity|congruence]).
        destruct (negb (is_dir d q)); [left; split; congruence|now right]. }
      destruct K as [(_ & ->)|K]; [split; [reflexivity|]; now left|].
      apply IH in K. destruct K as (Hw & Hl). split; [assumption|].
      intro p. destruct (Hl p) as [E|(A & B & C)]; [now left|]. right. repeat split; try assumption. now right.
Qed.

(** ** Copies *)

(** Two paths with these ends differ, whatever comes before. *)
Fixpoint differ (a b : list string) : bool :=
  match a, b with
  | x :: a, y :: b => negb (String.eqb x y) || differ a b
  | _, _ => false
  end.

Definition ends_differ (a b : path) : bool := differ (rev a) (rev b).

Lemma differ_sound : forall a b p q, differ a b = true -> a ++ p <> b ++ q.
Proof.
  induction a as [|x a IH]; intros [|y b] p q H; try discriminate.
  cbn in H. apply orb_true_iff in H. intro E. injection E as E1 E2. destruct H as [H|H].
  - apply negb_true_iff, String.eqb_neq in H. contradiction.
  - now apply (IH b p q H).
Qed.

Lemma ends_differ_sound : forall a b p q, ends_differ a b = true -> p ++ a <> q ++ b.
Proof.
  intros a b p q H E. apply (f_equal (@rev string)) in E. rewrite !rev_app_distr in E.
  now apply (differ_sound _ _ _ _ H) in E.
Qed.

Lemma copy2_step : forall src dst d r d', copy2 src dst d = (r, d') ->
  let dst' := if is_dir d dst then dst ++ [basename src] else dst in
  (exists data, r = Returned tt /\ look d src = Some (File data)
      /\ set_at d dst' (Some (File data)) d' /\ writable d dst' = true
      /\ look d dst' <> Some Dir /\ look d (parent dst') = Some Dir) \/
  (exists e, r = Raised e /\ d' = d).
Proof.
  intros src dst d r d' H. unfold copy2 in H. cbv zeta in *.
  set (dst' := if is_dir d dst then dst ++ [basename src] else dst) in *.
  destruct (look d src) as [[|data]|] eqn:L;
    try (injection H as <- <-; right; eexists; split; reflexivity).
  destruct (same src dst') eqn:E;
    [injection H as <- <-; right; eexists; split; reflexivity|].
  destruct (look d dst') as [[|old]|] eqn:K;
    [injection H as <- <-; right; eexists; split; reflexivity| |].
  all: destruct (is_dir d (parent dst')) eqn:P; cbn [negb] in H;
    [|injection H as <- <-; right; eexists; split; reflexivity].
  all: apply is_dir_true in P.
  all: destruct (writable d dst') eqn:W; cbn [negb] in H;
    injection H as <- <-; [left|right; eexists; split; reflexivity].
  all: exists data; repeat split; try assumption; try discriminate; try reflexivity.
  all: intro q; apply look_put; intros N; rewrite N in K; cbn in K; discriminate.
Qed.

Section Copies.
Variables top here : path.

(** One copy: a source below [here], and the directory below [top]. *)
Definition copy_one (c : path * path) : io unit :=
  copy2 (here ++ fst c) (top ++ snd c).

Definition target (c : path * path) : path := snd c ++ [basename (fst c)].

Lemma basename_app : forall t, t <> [] -> basename (here ++ t) = basename t.
Proof.
  intros t H. unfold basename. destruct (exists_last H) as (l & x & ->).
  rewrite app_assoc, !last_last. reflexivity.
Qed.

(** No copy writes over the source or the directory of another. *)
Definition separate (l : list (path * path)) : bool :=
  forallb (fun c => forallb (fun c' =>
    ends_differ (target c') (fst c) && negb (same (target c') (snd c))) l) l.

Definition separate_from (cs l : list (path * path)) : bool :=
  forallb (fun c => forallb (fun c' =>
    ends_differ (target c') (fst c) && negb (same (target c') (snd c))) cs) l.

(** The source of what ends at [p]: that of the last copy to there. *)
Fixpoint source_of (l : list (path * path)) (p : path) : option path :=
  match l with
  | [] => None
  | c :: l =>
      match source_of l p with
      | Some t => Some t
      | None => if same (top ++ target c) p then Some (fst c) else None
      end
  end.

Definition a_file (o : option node) : Prop := exists data, o = Some (File data).

Lemma separate_cons : forall c l, separate (c :: l) = true ->
  separate l = true /\
  forall c', In c' l -> ends_differ (target c) (fst c') = true /\ target c <> snd c'.
Proof.
  intros c l H. unfold separate in *. rewrite forallb_forall in H. split.
  - apply forallb_forall. intros a Ha. apply forallb_forall. intros b Hb.
    specialize (H a (or_intror Ha)). rewrite forallb_forall in H. apply H. now right.
  - intros c' Hc. specialize (H c' (or_intror Hc)). rewrite forallb_forall in H.
    specialize (H c (or_introl eq_refl)). apply andb_true_iff in H. destruct H as (A & B).
    split; [assumption|]. apply negb_true_iff in B. now apply same_false in B.
Qed.

Lemma top_app_inv : forall a b, top ++ a = top ++ b -> a = b.
Proof. intros a b. apply app_inv_head. Qed.

Lemma copies_done : forall (l : list (path * path)) d d',
  separate l = true -> (forall c, In c l -> fst c <> []) ->
  (forall c, In c l -> look d (top ++ snd c) = Some Dir) ->
  each copy_one l d = (Returned tt, d') ->
  writable d' = writable d /\
  (forall p, look d' p = match source_of l p with
                         | Some t => look d (here ++ t)
                         | None => look d p
                         end) /\
  (forall c, In c l -> a_file (look d (here ++ fst c)) /\ writable d (top ++ target c) = true
                       /\ look d (top ++ target c) <> Some Dir).
Proof.
  induction l as [|c l IH]; intros d d' Hs Hn Hd H.
  - cbn in H. injection H as <-. repeat split; easy.
  - apply separate_cons in Hs. destruct Hs as (Hs & Hc).
    cbn [each] in H. unfold andthen in H. destruct (copy_one c d) as [[u|e] d1] eqn:C; [|discriminate].
    destruct u. unfold copy_one in C. pose proof (copy2_step _ _ _ _ _ C) as S. cbv zeta in S.
    pose proof (Hd c (or_introl eq_refl)) as Dd. apply is_dir_true in Dd. rewrite Dd in S.
    rewrite basename_app in S by (apply Hn; now left).
    rewrite <- app_assoc in S. fold (target c) in S.
    destruct S as [(data & _ & Src & (Sw & Sl) & W & K & _)|(e & E & _)]; [|discriminate].
    assert (Src' : forall c', In c' l -> look d1 (here ++ fst c') = look d (here ++ fst c')).
    { intros c' Hin. rewrite Sl. destruct (Hc c' Hin) as (A & _).
      destruct (same (top ++ target c) (here ++ fst c')) eqn:E; [|reflexivity].
      apply same_true in E. now apply (ends_differ_sound _ _ top here A) in E. }
    apply IH in H; [|assumption|intros c' Hin; apply Hn; now right|].
    + destruct H as (Hw & Hl & Hf). repeat split.
      * congruence.
      * intro p. rewrite Hl. cbn [source_of].
        destruct (source_of l p) as [t|] eqn:E.
        -- assert (exists c', In c' l /\ fst c' = t) as (c' & Hin & <-).
           { clear - E. induction l as [|c' l IH]; [discriminate|]. cbn in E.
             destruct (source_of l p) as [t'|].
             - injection E as ->. destruct (IH eq_refl) as (x & A & B). exists x. split; [now right|assumption].
             - destruct (same (top ++ target c') p); [|discriminate].
               injection E as E. exists c'. split; [now left|assumption]. }
           now apply Src'.
        -- rewrite Sl. destruct (same (top ++ target c) p); [now rewrite Src|reflexivity].
      * destruct H as [<-|Hin]; [exists data; assumption|].
        rewrite <- (Src' _ Hin). now apply Hf.
      * destruct H as [<-|Hin]; [assumption|]. rewrite <- Sw. now apply Hf.
      * destruct H as [<-|Hin]; [assumption|].
        destruct (Hf _ Hin) as (_ & _ & B). rewrite Sl in B.
        destruct (same (top ++ target c) (top ++ target c0)) eqn:E; [|assumption].
        apply same_true in E. congruence.
    + intros c' Hin. rewrite Sl.
      destruct (same (top ++ target c) (top ++ snd c')) eqn:E.
      * apply same_true, top_app_inv in E. now destruct (Hc c' Hin).
      * apply Hd. now right.
Qed.

(** Whatever comes of them, copies change only what they name. *)
Lemma copies_any : forall (l : list (path * path)) d r d',
  (forall c, In c l -> fst c <> []) ->
  each copy_one l d = (r, d') ->
  writable d' = writable d /\
  forall p, look d' p = look d p \/
    exists c, In c l /\ (p = top ++ target c \/ p = top ++ snd c /\ look d p <> Some Dir).
Proof.
  induction l as [|c l IH]; intros d r d' Hn H.
  - cbn in H. injection H as <- <-. split; [reflexivity|]. now left.
  - cbn [each] in H. unfold andthen in H. destruct (copy_one c d) as [r1 d1] eqn:C.
    unfold copy_one in C. pose proof (copy2_step _ _ _ _ _ C) as S. cbv zeta in S.
    destruct S as [(data & -> & Src & (Sw & Sl) & W & K & _)|(e & -> & ->)].
    + apply IH in H; [|intros c' Hin; apply Hn; now right].
      destruct H as (Hw & Hl). split; [congruence|]. intro p.
      assert (A : look d1 p = look d p \/
        exists c', In c' (c :: l) /\ (p = top ++ target c' \/ p = top ++ snd c' /\ look d p <> Some Dir)).
      { rewrite Sl. destruct (same _ p) eqn:E; [|now left]. right. exists c.
        split; [now left|]. apply same_true in E. subst p.
        destruct (is_dir d (top ++ snd c)) eqn:D.
        - left. rewrite basename_app by (apply Hn; now left).
          unfold target. rewrite ?D; symmetry. apply app_assoc.
        - right. rewrite ?D in *. split; [reflexivity|assumption]. }
      destruct A as [A|A]; [|now right].
      destruct (Hl p) as [B|(c' & Hin & B)]; [left; congruence|].
      right. exists c'. split; [now right|]. now rewrite A in B.
    + injection H as <- <-. split; [reflexivity|]. now left.
Qed.

(** When nothing stands in the way, copies succeed. *)
Lemma copies_succeed : forall (l : list (path * path)) d,
  separate l = true -> (forall c, In c l -> fst c <> []) ->
  (forall c, In c l -> look d (top ++ snd c) = Some Dir) ->
  (forall c, In c l -> a_file (look d (here ++ fst c)) /\ writable d (top ++ target c) = true
                       /\ look d (top ++ target c) <> Some Dir) ->
  exists d', each copy_one l d = (Returned tt, d').
Proof.
  induction l as [|c l IH]; intros d Hs Hn Hd Hf.
  - exists d. reflexivity.
  - pose proof Hs as Hself. unfold separate in Hself. rewrite forallb_forall in Hself.
    specialize (Hself c (or_introl eq_refl)). rewrite forallb_forall in Hself.
    specialize (Hself c (or_introl eq_refl)). apply andb_true_iff in Hself. destruct Hself as (Hself & _).
    apply separate_cons in Hs. destruct Hs as (Hs & Hc).
    pose proof (Hd c (or_introl eq_refl)) as Dd.
    destruct (Hf c (or_introl eq_refl)) as ((data & Src) & W & K).
    assert (C : copy_one c d = (Returned tt, put d (top ++ target c) (File data))).
    { unfold copy_one, copy2. pose proof Dd as Dd'. apply is_dir_true in Dd'. rewrite Dd'.
      rewrite basename_app by (apply Hn; now left). rewrite <- app_assoc.
      fold (target c). rewrite Src.
      destruct (same (here ++ fst c) (top ++ target c)) eqn:E.
      { apply same_true in E. symmetry in E. now apply (ends_differ_sound _ _ top here Hself) in E. }
      assert (P : is_dir d (parent (top ++ target c)) = true).
      { unfold target. rewrite app_assoc, parent_app. assumption. }
      rewrite P, W. cbn [negb].
      destruct (look d (top ++ target c)) as [[|]|]; [contradiction|reflexivity|reflexivity]. }
    cbn [each]. unfold andthen. rewrite C.
    assert (N : top ++ target c <> []) by (unfold target; rewrite app_assoc; apply app_end_not_nil).
    apply IH; [assumption|intros c' Hin; apply Hn; now right| |].
    + intros c' Hin. rewrite look_put by assumption.
      destruct (same (top ++ target c) (top ++ snd c')) eqn:E.
      * apply same_true, top_app_inv in E. now destruct (Hc c' Hin).
      * apply Hd. now right.
    + intros c' Hin. destruct (Hf c' (or_intror Hin)) as (A & B & D).
      rewrite !look_put by assumption. destruct (Hc c' Hin) as (Hx & _).
      destruct (same (top ++ target c) (here ++ fst c')) eqn:E.
      { apply same_true in E. now apply (ends_differ_sound _ _ top here Hx) in E. }
      split; [assumption|]. split; [exact B|].
      destruct (same (top ++ target c) (top ++ target c')); [discriminate|assumption].
Qed.

End Copies.
