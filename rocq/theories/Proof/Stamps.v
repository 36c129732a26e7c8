(** Comparing time stamps is enough, as long as they tell of every change. *)
From Coq Require Import ZArith List Bool String Ascii Lia.
From Verif Require Import Model.Make Model.Stamps Spec.Fresh Proof.InstallFacts.
Import ListNotations.
Open Scope string_scope.
Open Scope list_scope.

Lemma same_product_true : forall a b, same_product a b = true <-> a = b.
Proof. intros [] []; cbn; split; congruence. Qed.

Lemma file_remove : forall l p q,
  file_in (remove l p) q = if same p q then None else file_in l q.
Proof.
  induction l as [|[r f] l IH]; intros p q.
  - cbn. now destruct (same p q).
  - unfold remove. cbn [filter fst]. fold (remove l p).
    destruct (same r p) eqn:E; cbn [negb file_in].
    + rewrite IH. apply same_true in E. subst r. destruct (same p q); reflexivity.
    + destruct (same r q) eqn:F; [|apply IH].
      apply same_true in F. subst r. rewrite same_sym, E. reflexivity.
Qed.

Lemma file_in_in : forall l p f, file_in l p = Some f -> In (p, f) l.
Proof.
  induction l as [|[q g] l IH]; intros p f H; [easy|].
  cbn in H. destruct (same q p) eqn:E.
  - apply same_true in E. left. congruence.
  - right. now apply IH.
Qed.

(** Each path is in the list once. *)
Definition distinct (w : world) : Prop := NoDup (map fst (sources w)).

Lemma in_file_in : forall l p f, NoDup (map fst l) -> In (p, f) l -> file_in l p = Some f.
Proof.
  induction l as [|[q g] l IH]; intros p f N H; [easy|].
  cbn in N. apply NoDup_cons_iff in N. destruct N as (N1 & N2). cbn. destruct H as [H|H].
  - injection H as -> ->. now rewrite same_refl.
  - destruct (same q p) eqn:E; [|now apply IH].
    apply same_true in E. subst q. exfalso. apply N1.
    change p with (fst (p, f)). now apply in_map.
Qed.

Lemma remove_distinct : forall l p, NoDup (map fst l) -> NoDup (map fst (remove l p)).
Proof.
  induction l as [|[q g] l IH]; intros p N; [assumption|].
  cbn in N. apply NoDup_cons_iff in N. destruct N as (N1 & N2).
  unfold remove. cbn [filter fst]. fold (remove l p).
  destruct (negb (same q p)); [|now apply IH].
  cbn. apply NoDup_cons; [|now apply IH].
  intro H. apply N1. apply in_map_iff in H. destruct H as ([r f] & E & H). cbn in E. subst r.
  apply filter_In in H. change q with (fst (q, f)). apply in_map, H.
Qed.

Lemma remove_gone : forall l p, ~ In p (map fst (remove l p)).
Proof.
  intros l p H. apply in_map_iff in H. destruct H as ([r f] & E & H). cbn in E. subst r.
  apply filter_In in H. destruct H as (_ & H). cbn in H. rewrite same_refl in H. discriminate.
Qed.

(** Somebody watched by [x] is newer than [stamp]. *)
Definition some_newer (x : product) (w : world) (stamp : Z) : Prop :=
  exists p c t, watched_for x p = true /\ file_at w p = Some (c, t) /\ (stamp < t)%Z.

Lemma source_is_newer_true : forall x w stamp, distinct w -> mark w x = Some stamp ->
  (source_is_newer x w = true <-> some_newer x w stamp).
Proof.
  intros x w stamp N M. unfold source_is_newer. rewrite M. rewrite existsb_exists. split.
  - intros ([p [c t]] & H & K). cbn [fst snd] in K. apply andb_true_iff in K. destruct K as (K1 & K2).
    apply Z.ltb_lt in K2. exists p, c, t. repeat split; try assumption.
    now apply in_file_in.
  - intros (p & c & t & K1 & K2 & K3). exists (p, (c, t)). split; [now apply file_in_in|].
    cbn [fst snd]. rewrite K1. now apply Z.ltb_lt.
Qed.

(** * What is always so *)

(** Time stamps do not lie in the future of the marks. *)
Definition timely (w : world) : Prop :=
  distinct w /\ forall x t, mark w x = Some t -> (t <= now w)%Z.

Lemma timely_write : forall p c w, timely w -> timely (write p c w).
Proof.
  intros p c w (D & T). split.
  - unfold distinct, write. cbn. apply NoDup_cons; [apply remove_gone|now apply remove_distinct].
  - cbn. intros x t M. apply T in M. lia.
Qed.

Lemma timely_restore : forall p c s w, timely w -> timely (restore p c s w).
Proof.
  intros p c s w (D & T). split.
  - unfold distinct, restore. cbn. apply NoDup_cons; [apply remove_gone|now apply remove_distinct].
  - cbn. intros x t M. apply T in M. lia.
Qed.

Lemma timely_delete : forall p w, timely w -> timely (delete p w).
Proof.
  intros p w (D & T). split; [now apply remove_distinct|].
  cbn. intros x t M. apply T in M. lia.
Qed.

Lemma timely_clean : forall w, timely w -> timely (clean_up w).
Proof. intros w (D & T). split; [assumption|]. cbn. discriminate. Qed.

Lemma timely_set_made : forall x t w, timely w -> timely (snd (set_made x t w)).
Proof.
  intros x [|junk] w (D & T); (split; [assumption|]); cbn; intros y s M.
  - unfold set in M. destruct (same_product x y); [injection M as <-; lia|]. apply T in M. lia.
  - apply T in M. lia.
Qed.

Lemma visit_set_made : forall x t w,
  visit x t w = if source_is_newer x w then set_made x t w else (true, w).
Proof. intros x t w. unfold visit, set_made. now destruct (source_is_newer x w). Qed.

Lemma timely_visit : forall x t w, timely w -> timely (snd (visit x t w)).
Proof.
  intros x t w H. rewrite visit_set_made. destruct (source_is_newer x w); [|assumption].
  now apply timely_set_made.
Qed.

Lemma timely_visit_all : forall xs t w, timely w -> timely (snd (visit_all xs t w)).
Proof.
  induction xs as [|x xs IH]; intros t w H; [assumption|]. cbn [visit_all].
  pose proof (timely_visit x (t x) w H) as V. destruct (visit x (t x) w) as [[|] w']; [now apply IH|assumption].
Qed.

Lemma timely_happen : forall e w, timely w -> timely (happen w e).
Proof.
  intros [p c|p|p c s|x t|] w H; cbn [happen].
  - now apply timely_write.
  - now apply timely_delete.
  - now apply timely_restore.
  - now apply timely_visit_all.
  - now apply timely_clean.
Qed.

(** * If nothing is removed *)

(** Either something is newer than the mark, or all is as it was made. *)
Definition honest (x : product) (w : world) : Prop :=
  forall t, mark w x = Some t ->
    some_newer x w t \/ forall p, watched_for x p = true -> made w x p = current w p.

Lemma current_write : forall p c w q, current (write p c w) q = if same p q then Some c else current w q.
Proof.
  intros p c w q. unfold current, file_at, write. cbn [sources file_in].
  destruct (same p q) eqn:E; [reflexivity|]. now rewrite file_remove, E.
Qed.

Lemma honest_write : forall x p c w, timely w -> honest x w -> honest x (write p c w).
Proof.
  intros x p c w (D & T) H t M. cbn in M. pose proof (T _ _ M) as L.
  destruct (watched_for x p) eqn:W.
  - left. exists p, c, (now w + 1)%Z. repeat split; [assumption| |lia].
    unfold file_at, write. cbn [sources file_in]. now rewrite same_refl.
  - destruct (H t M) as [(q & c' & t' & K1 & K2 & K3)|H'].
    + left. exists q, c', t'. repeat split; try assumption.
      unfold file_at, write. cbn [sources file_in].
      destruct (same p q) eqn:E; [apply same_true in E; congruence|]. rewrite file_remove, E. exact K2.
    + right. intros q K. cbn [made write]. rewrite current_write.
      destruct (same p q) eqn:E; [apply same_true in E; congruence|]. now apply H'.
Qed.

Lemma honest_clean : forall x w, honest x (clean_up w).
Proof. intros x w t M. discriminate. Qed.

Lemma set_same : forall A (f : product -> A) x a, set f x a x = a.
Proof. intros. unfold set. now rewrite (proj2 (same_product_true x x) eq_refl). Qed.

Lemma set_other : forall A (f : product -> A) x y a, x <> y -> set f x a y = f y.
Proof.
  intros. unfold set. destruct (same_product x y) eqn:E; [|reflexivity].
  apply same_product_true in E. contradiction.
Qed.

Lemma product_dec : forall a b : product, {a = b} + {a <> b}.
Proof. decide equality. Qed.

Lemma honest_visit : forall x y t w, timely w -> honest x w -> honest x (snd (visit y t w)).
Proof.
  intros x y t w T H. rewrite visit_set_made.
  destruct (source_is_newer y w) eqn:N; [|assumption].
  destruct t as [|junk]; cbn [set_made snd]; intros s M; cbn [mark made] in M.
  - destruct (product_dec y x) as [->|Y].
    + right. intros p _. cbn [made]. now rewrite set_same.
    + rewrite set_other in M by assumption. destruct (H s M) as [K|K]; [now left|right].
      intros p W. cbn [made]. rewrite set_other by assumption. exact (K p W).
  - destruct (product_dec y x) as [->|Y].
    + left. destruct T as (D & _). now apply (source_is_newer_true x w s D M) in N.
    + destruct (H s M) as [K|K]; [now left|right].
      intros p W. cbn [made]. rewrite set_other by assumption. exact (K p W).
Qed.

Lemma honest_visit_all : forall x xs t w, timely w -> honest x w -> honest x (snd (visit_all xs t w)).
Proof.
  induction xs as [|y xs IH]; intros t w T H; [assumption|]. cbn [visit_all].
  pose proof (timely_visit y (t y) w T) as T'. pose proof (honest_visit x y (t y) w T H) as H'.
  destruct (visit y (t y) w) as [[|] w']; [now apply IH|assumption].
Qed.

Lemma honest_history : forall x es w, Forall only_written es -> timely w -> honest x w ->
  timely (history w es) /\ honest x (history w es).
Proof.
  induction es as [|e es IH]; intros w F T H; [now split|].
  apply Forall_cons_iff in F. destruct F as (F1 & F2). cbn [history fold_left].
  apply (IH (happen w e) F2); [now apply timely_happen|].
  destruct e as [p c|p|p c s|y t|]; try contradiction; cbn [happen].
  - now apply honest_write.
  - now apply honest_visit_all.
  - apply honest_clean.
Qed.

Definition watched_fresh (x : product) (w : world) : Prop :=
  forall p, watched_for x p = true -> made w x p = current w p.

Lemma visit_fresh : forall x w, timely w -> honest x w ->
  fst (visit x Work w) = true /\ watched_fresh x (snd (visit x Work w)).
Proof.
  intros x w (D & T) H. rewrite visit_set_made. destruct (source_is_newer x w) eqn:N.
  - split; [reflexivity|]. intros p _. cbn. now rewrite set_same.
  - split; [reflexivity|]. intros p W. cbn [snd]. destruct (mark w x) as [s|] eqn:M.
    + destruct (H s M) as [K|K]; [|now apply K].
      apply (source_is_newer_true x w s D M) in K. congruence.
    + unfold source_is_newer in N. rewrite M in N. discriminate.
Qed.

Lemma visit_keeps_fresh : forall x y t w, x <> y -> watched_fresh x w -> watched_fresh x (snd (visit y t w)).
Proof.
  intros x y t w Y H p W. rewrite visit_set_made. destruct (source_is_newer y w); [|now apply H].
  destruct t; cbn; rewrite set_other by congruence; exact (H p W).
Qed.

Lemma visit_sources : forall x t w, sources (snd (visit x t w)) = sources w.
Proof. intros x t w. rewrite visit_set_made. destruct (source_is_newer x w); [|reflexivity]. now destruct t. Qed.

(** * If the other programs always work *)

(** What is older than the mark is as it was made. *)
Definition faithful (x : product) (w : world) : Prop :=
  forall t p c s, mark w x = Some t -> watched_for x p = true -> file_at w p = Some (c, s) ->
    (s <= t)%Z -> made w x p = Some c.

Lemma faithful_write : forall x p c w, timely w -> faithful x w -> faithful x (write p c w).
Proof.
  intros x p c w (_ & T) H t q c' s M W F L. cbn in M. pose proof (T _ _ M) as L'.
  unfold file_at, write in F. cbn [sources file_in] in F. rewrite file_remove in F.
  destruct (same p q) eqn:E; [injection F as <- <-; lia|]. exact (H t q c' s M W F L).
Qed.

Lemma faithful_delete : forall x p w, faithful x w -> faithful x (delete p w).
Proof.
  intros x p w H t q c' s M W F L. cbn in M.
  unfold file_at, delete in F. cbn [sources file_in] in F. rewrite file_remove in F.
  destruct (same p q) eqn:E; [discriminate|]. exact (H t q c' s M W F L).
Qed.

Lemma faithful_visit : forall x y w, faithful x w -> faithful x (snd (visit y Work w)).
Proof.
  intros x y w H. rewrite visit_set_made. destruct (source_is_newer y w); [|assumption].
  intros t p c s M W F L. cbn [set_made snd made mark] in *. change (file_at w p = Some (c, s)) in F.
  destruct (product_dec y x) as [->|Y].
  - rewrite set_same. unfold current. now rewrite F.
  - rewrite set_other in M by assumption. rewrite set_other by assumption. exact (H t p c s M W F L).
Qed.

Lemma faithful_visit_all : forall x xs t w, (forall y, t y = Work) -> faithful x w ->
  faithful x (snd (visit_all xs t w)).
Proof.
  induction xs as [|y xs IH]; intros t w Q H; [assumption|]. cbn [visit_all]. rewrite Q.
  pose proof (faithful_visit x y w H) as H'.
  destruct (visit y Work w) as [[|] w']; [now apply IH|assumption].
Qed.

Lemma faithful_history : forall x es w, Forall always_works es -> timely w -> faithful x w ->
  timely (history w es) /\ faithful x (history w es).
Proof.
  induction es as [|e es IH]; intros w F T H; [now split|].
  apply Forall_cons_iff in F. destruct F as (F1 & F2). cbn [history fold_left].
  apply (IH (happen w e) F2); [now apply timely_happen|].
  destruct e as [p c|p|p c s|y t|]; try contradiction; cbn [happen].
  - now apply faithful_write.
  - now apply faithful_delete.
  - now apply faithful_visit_all.
  - intros t p c s M. discriminate.
Qed.

Lemma faithful_newer : forall x w p c s, timely w -> faithful x w ->
  fst (visit x Work w) = true /\
  (watched_for x p = true -> file_at w p = Some (c, s) -> made (snd (visit x Work w)) x p = Some c).
Proof.
  intros x w p c s (D & T) H. rewrite visit_set_made. destruct (source_is_newer x w) eqn:N.
  - split; [reflexivity|]. intros W F. cbn. rewrite set_same. unfold current. now rewrite F.
  - split; [reflexivity|]. intros W F. cbn [snd]. destruct (mark w x) as [t|] eqn:M.
    + apply (H t p c s M W F). destruct (Z.le_gt_cases s t) as [L|L]; [assumption|].
      assert (K : some_newer x w t) by (exists p, c, s; now repeat split).
      apply (source_is_newer_true x w t D M) in K. congruence.
    + unfold source_is_newer in N. rewrite M in N. discriminate.
Qed.

(** * The runs of make.py *)

Lemma start_timely : forall l t, NoDup (map fst l) -> timely (start l t).
Proof. intros l t N. split; [assumption|]. discriminate. Qed.

Lemma start_honest : forall x l t, honest x (start l t).
Proof. intros x l t s M. discriminate. Qed.

Lemma start_faithful : forall x l t, faithful x (start l t).
Proof. intros x l t s p c u M. discriminate. Qed.

(** All of [xs] works and the last of them is up to date. *)
Lemma run_last : forall (P : product -> world -> Prop),
  (forall y t w, timely w -> (forall x, P x w) -> forall x, P x (snd (visit y t w))) ->
  forall xs t w, timely w -> (forall x, P x w) -> (forall y, In y xs -> t y = Work) ->
  (forall y w, timely w -> (forall x, P x w) -> fst (visit y Work w) = true) ->
  fst (visit_all xs t w) = true /\ timely (snd (visit_all xs t w)) /\ forall x, P x (snd (visit_all xs t w)).
Proof.
  intros P V xs. induction xs as [|y xs IH]; intros t w T H Q S; [split; [reflexivity|now split]|].
  cbn [visit_all]. rewrite (Q y (or_introl eq_refl)).
  pose proof (S y w T H) as E. pose proof (timely_visit y Work w T) as T'. pose proof (V y Work w T H) as H'.
  destruct (visit y Work w) as [b w']. cbn in E, T', H'. subst b.
  apply IH; try assumption. intros z Hz. apply Q. now right.
Qed.

Lemma visit_all_app : forall xs ys t w,
  visit_all (xs ++ ys) t w =
  match visit_all xs t w with (true, w') => visit_all ys t w' | r => r end.
Proof.
  induction xs as [|x xs IH]; intros ys t w; [reflexivity|].
  cbn [visit_all app]. destruct (visit x (t x) w) as [[|] w']; [apply IH|reflexivity].
Qed.

Lemma steps_last : forall x, exists xs, steps x = xs ++ [x] /\ ~ In x xs.
Proof.
  intros []; [exists []|exists [Libraries]|exists [Libraries; Tests]]; split; try reflexivity; cbn;
    intuition discriminate.
Qed.

Lemma run_fresh : forall x t w, timely w -> (forall y, honest y w) -> (forall y, In y (steps x) -> t y = Work) ->
  fst (run x t w) = true /\ watched_fresh x (snd (run x t w)).
Proof.
  intros x t w T H Q. unfold run. destruct (steps_last x) as (xs & E & _). rewrite E in Q |- *.
  rewrite visit_all_app.
  destruct (run_last honest (fun y t w T H x => honest_visit x y t w T (H x)) xs t w T H) as (R1 & R2 & R3).
  - intros y Hy. apply Q. apply in_or_app. now left.
  - intros y w' T' H'. now apply visit_fresh.
  - destruct (visit_all xs t w) as [b w']. cbn in R1, R2, R3. subst b.
    cbn [visit_all]. rewrite (Q x) by (apply in_or_app; right; now left).
    destruct (visit_fresh x w' R2 (R3 x)) as (V1 & V2).
    destruct (visit x Work w') as [b w'']. cbn in V1, V2. subst b. now split.
Qed.

Lemma honest_all : forall es w, Forall only_written es -> timely w -> (forall x, honest x w) ->
  timely (history w es) /\ forall x, honest x (history w es).
Proof.
  intros es w F T H. split.
  - apply (honest_history Libraries es w F T (H Libraries)).
  - intro x. apply (honest_history x es w F T (H x)).
Qed.

(** Everything a product needs is watched, but for three files. *)
Definition unseen (v : string) : list path := [test_data v; framework; cmake_module].

Lemma needs_watched : forall v x p, In v versions -> In p (needs ["configvars.py"] v x) ->
  ~ In p (unseen v) -> watched_for x p = true.
Proof.
  intros v x p V N U.
  assert (K : forallb (fun v => forallb (fun x => forallb (fun p =>
      existsb (same p) (unseen v) || watched_for x p) (needs ["configvars.py"] v x))
      [Libraries; Tests; Installer]) versions = true) by (vm_compute; reflexivity).
  rewrite forallb_forall in K. specialize (K v V). rewrite forallb_forall in K.
  assert (X : In x [Libraries; Tests; Installer]) by (destruct x; cbn; tauto).
  specialize (K x X). rewrite forallb_forall in K. specialize (K p N).
  apply orb_true_iff in K. destruct K as [K|K]; [|assumption].
  apply existsb_exists in K. destruct K as (q & Q & E). apply same_true in E. subst q. contradiction.
Qed.

Theorem make_py_fresh : forall l t0 es x t v p,
  NoDup (map fst l) -> Forall only_written es -> (forall y, In y (steps x) -> t y = Work) ->
  In v versions -> In p (needs ["configvars.py"] v x) -> ~ In p (unseen v) ->
  let (ok, w) := run x t (history (start l t0) es) in
  ok = true /\ made w x p = current w p.
Proof.
  intros l t0 es x t v p N F Q V P U.
  destruct (honest_all es (start l t0) F (start_timely l t0 N) (fun x => start_honest x l t0)) as (T & H).
  destruct (run_fresh x t _ T H Q) as (R1 & R2).
  destruct (run x t (history (start l t0) es)) as [ok w]. cbn in R1, R2. split; [assumption|].
  apply R2. now apply (needs_watched v).
Qed.

(** Libraries in particular: none of the three is among what they need. *)
Lemma libraries_see : forall v p, In v versions -> In p (needs ["configvars.py"] v Libraries) -> ~ In p (unseen v).
Proof.
  intros v p V N U.
  assert (K : forallb (fun v => forallb (fun p => negb (existsb (same p) (unseen v)))
     (needs ["configvars.py"] v Libraries)) versions = true) by (vm_compute; reflexivity).
  rewrite forallb_forall in K. specialize (K v V). rewrite forallb_forall in K. specialize (K p N).
  apply negb_true_iff in K. apply not_true_iff_false in K. apply K.
  apply existsb_exists. exists p. split; [assumption|apply same_refl].
Qed.

Theorem libraries_fresh : forall l t0 es t v,
  NoDup (map fst l) -> Forall only_written es -> t Libraries = Work -> In v versions ->
  let (ok, w) := run Libraries t (history (start l t0) es) in
  ok = true /\ fresh w Libraries (needs ["configvars.py"] v Libraries).
Proof.
  intros l t0 es t v N F Q V.
  destruct (honest_all es (start l t0) F (start_timely l t0 N) (fun x => start_honest x l t0)) as (T & H).
  assert (Q' : forall y, In y (steps Libraries) -> t y = Work) by (intros y [<-|[]]; assumption).
  destruct (run_fresh Libraries t _ T H Q') as (R1 & R2).
  destruct (run Libraries t (history (start l t0) es)) as [ok w]. cbn in R1, R2. split; [assumption|].
  intros p P. apply R2. apply (needs_watched v Libraries p V P). now apply libraries_see.
Qed.

(** With files deleted: what is still there is as it was made. *)
Theorem make_py_faithful : forall l t0 es x v p c s,
  NoDup (map fst l) -> Forall always_works es -> In v versions ->
  In p (needs ["configvars.py"] v x) -> ~ In p (unseen v) ->
  let (ok, w) := run x (fun _ => Work) (history (start l t0) es) in
  ok = true /\ (file_at w p = Some (c, s) -> made w x p = Some c).
Proof.
  intros l t0 es x v p c s N F V P U.
  assert (A : forall y, timely (history (start l t0) es) /\ faithful y (history (start l t0) es)).
  { intro y. apply faithful_history; [assumption|now apply start_timely|apply start_faithful]. }
  set (w0 := history (start l t0) es) in *.
  unfold run. destruct (steps_last x) as (xs & E & _). rewrite E. rewrite visit_all_app.
  assert (B : forall xs w, timely w -> (forall y, faithful y w) ->
     fst (visit_all xs (fun _ => Work) w) = true /\ timely (snd (visit_all xs (fun _ => Work) w)) /\
     forall y, faithful y (snd (visit_all xs (fun _ => Work) w))).
  { clear. induction xs as [|y xs IH]; intros w T H; [split; [reflexivity|now split]|]. cbn [visit_all].
    destruct (faithful_newer y w [] [] 0%Z T (H y)) as (E & _).
    pose proof (timely_visit y Work w T) as T'.
    pose proof (fun x => faithful_visit x y w (H x)) as H'.
    destruct (visit y Work w) as [b w']. cbn in E, T', H'. subst b. now apply IH. }
  destruct (B xs w0 (proj1 (A x)) (fun y => proj2 (A y))) as (R1 & R2 & R3).
  destruct (visit_all xs (fun _ => Work) w0) as [b w']. cbn in R1, R2, R3. subst b.
  cbn [visit_all]. destruct (faithful_newer x w' p c s R2 (R3 x)) as (V1 & V2).
  pose proof (visit_sources x Work w') as S.
  destruct (visit x Work w') as [b w'']. cbn in V1, V2, S. subst b. split; [reflexivity|].
  intro Fp. apply V2; [now apply (needs_watched v)|]. unfold file_at in *. now rewrite S in Fp.
Qed.

(** * Nothing is made twice *)

Lemma visit_again : forall x t t' w, (forall p c s, file_at w p = Some (c, s) -> (s <= now w)%Z) ->
  timely w -> fst (visit x t w) = true -> visit x t' (snd (visit x t w)) = (true, snd (visit x t w)).
Proof.
  intros x t t' w L T. rewrite visit_set_made. destruct (source_is_newer x w) eqn:N.
  - destruct t as [|junk]; cbn [set_made fst snd]; [intros _|discriminate].
    rewrite visit_set_made. match goal with |- (if source_is_newer x ?w' then _ else _) = _ =>
      destruct (source_is_newer x w') eqn:N'; [exfalso|reflexivity] end.
    apply (source_is_newer_true x _ (now w + 1)%Z) in N'.
    + destruct N' as (p & c & s & _ & Fp & G). apply (L p c s) in Fp. lia.
    + exact (proj1 T).
    + cbn. now rewrite set_same.
  - cbn [fst snd]. intros _. rewrite visit_set_made, N. reflexivity.
Qed.

(** No time stamp lies in the future. *)
Definition past (w : world) : Prop := forall p c s, file_at w p = Some (c, s) -> (s <= now w)%Z.

Lemma past_visit : forall x t w, past w -> past (snd (visit x t w)).
Proof.
  intros x t w H. rewrite visit_set_made. destruct (source_is_newer x w); [|assumption].
  destruct t; intros p c s F; cbn [set_made snd now]; change (file_at w p = Some (c, s)) in F;
    apply H in F; lia.
Qed.

Lemma past_visit_all : forall xs t w, past w -> past (snd (visit_all xs t w)).
Proof.
  induction xs as [|x xs IH]; intros t w H; [assumption|]. cbn [visit_all].
  pose proof (past_visit x (t x) w H) as V. destruct (visit x (t x) w) as [[|] w']; [now apply IH|assumption].
Qed.

Definition not_restored (e : event) : Prop := match e with Restore _ _ _ => False | _ => True end.

Lemma past_history : forall es w, Forall not_restored es -> timely w -> past w ->
  timely (history w es) /\ past (history w es).
Proof.
  induction es as [|e es IH]; intros w F T H; [now split|].
  apply Forall_cons_iff in F. destruct F as (F1 & F2). cbn [history fold_left].
  apply (IH (happen w e) F2); [now apply timely_happen|].
  destruct e as [p c|p|p c s|y t|]; try contradiction; cbn [happen].
  - intros q c' s K. unfold file_at, write in K. cbn [sources file_in] in K. rewrite file_remove in K.
    cbn [now write]. destruct (same p q); [injection K as <- <-; lia|]. apply H in K. lia.
  - intros q c' s K. unfold file_at, delete in K. cbn [sources file_in] in K. rewrite file_remove in K.
    cbn [now delete]. destruct (same p q); [discriminate|]. apply H in K. lia.
  - now apply past_visit_all.
  - intros q c' s K. cbn [now clean_up]. change (file_at w q = Some (c', s)) in K. apply H in K. lia.
Qed.

Lemma visit_settles : forall x t w, past w -> timely w -> fst (visit x t w) = true ->
  source_is_newer x (snd (visit x t w)) = false.
Proof.
  intros x t w L T. rewrite visit_set_made. destruct (source_is_newer x w) eqn:N; [|now intros _].
  destruct t as [|junk]; cbn [set_made fst snd]; [intros _|discriminate].
  apply not_true_iff_false. intro N'. apply (source_is_newer_true x _ (now w + 1)%Z) in N'.
  - destruct N' as (p & c & s & _ & Fp & G). apply (L p c s) in Fp. lia.
  - exact (proj1 T).
  - cbn. now rewrite set_same.
Qed.

Lemma visit_stays_settled : forall x y t w, x <> y ->
  source_is_newer x w = false -> source_is_newer x (snd (visit y t w)) = false.
Proof.
  intros x y t w X N. rewrite visit_set_made. destruct (source_is_newer y w); [|assumption].
  destruct t; unfold source_is_newer in *; cbn [set_made snd mark sources]; [|exact N].
  rewrite set_other by congruence. exact N.
Qed.

Lemma visit_all_settles : forall xs t w, NoDup xs -> past w -> timely w -> fst (visit_all xs t w) = true ->
  forall x, (In x xs \/ source_is_newer x w = false) -> source_is_newer x (snd (visit_all xs t w)) = false.
Proof.
  induction xs as [|y xs IH]; intros t w N P T R x X.
  - destruct X as [[]|X]. exact X.
  - apply NoDup_cons_iff in N. destruct N as (N1 & N2). cbn [visit_all] in *.
    pose proof (past_visit y (t y) w P) as P'. pose proof (timely_visit y (t y) w T) as T'.
    pose proof (visit_settles y (t y) w P T) as S.
    pose proof (fun H => visit_stays_settled x y (t y) w H) as K.
    destruct (visit y (t y) w) as [[|] w']; [|discriminate]. cbn [fst snd] in *.
    apply IH; try assumption. destruct (product_dec x y) as [->|D].
    + right. now apply S.
    + destruct X as [[X|X]|X]; [congruence|now left|right; now apply K].
Qed.

Lemma visit_all_settled : forall xs t w, (forall x, In x xs -> source_is_newer x w = false) ->
  visit_all xs t w = (true, w).
Proof.
  induction xs as [|x xs IH]; intros t w H; [reflexivity|]. cbn [visit_all].
  rewrite visit_set_made, (H x (or_introl eq_refl)). apply IH. intros y Hy. apply H. now right.
Qed.

Theorem run_again : forall l t0 es x t t',
  NoDup (map fst l) -> (forall f, In f l -> (snd (snd f) <= t0)%Z) -> Forall not_restored es ->
  let (ok, w) := run x t (history (start l t0) es) in
  ok = true -> run x t' w = (true, w).
Proof.
  intros l t0 es x t t' N L F.
  assert (P0 : past (start l t0)).
  { intros p c s K. apply file_in_in in K. apply L in K. exact K. }
  destruct (past_history es (start l t0) F (start_timely l t0 N) P0) as (T & P).
  set (w0 := history (start l t0) es) in *. unfold run.
  assert (ND : NoDup (steps x)) by (destruct x; repeat constructor; cbn; intuition discriminate).
  pose proof (visit_all_settles (steps x) t w0 ND P T) as S.
  destruct (visit_all (steps x) t w0) as [ok w]. cbn [fst snd] in S. intros ->.
  apply visit_all_settled. intros y Hy. apply S; [reflexivity|]. now left.
Qed.
