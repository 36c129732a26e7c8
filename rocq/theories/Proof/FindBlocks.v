(** The text of FindANSAK.cmake as blocks, without what only writes messages. *)
From Coq Require Import ZArith List Bool String Ascii Lia.
From Verif Require Import Gen.TextScripts Model.Make Model.Cmake.
Import ListNotations.
Open Scope string_scope.
Open Scope list_scope.

Definition word (w : string) : arg := {| quoted := false; pieces := [Lit w] |}.

(** message() other than SEND_ERROR *)
Definition note (n : string) (args : list arg) : bool :=
  String.eqb n "message" &&
  match args with
  | [] => true
  | a :: _ => quoted a || match pieces a with [Lit w] => negb (String.eqb w "SEND_ERROR") | _ => false end
  end.

Definition only_name (c : list arg) : bool :=
  match c with
  | [a] => negb (quoted a) && match pieces a with [Lit w] => negb (String.eqb w "NOT" || String.eqb w "AND" || String.eqb w "OR") | _ => false end
  | _ => false
  end.

Fixpoint strip (b : block) : block :=
  match b with
  | Nil => Nil
  | Do n args rest => if note n args then strip rest else Do n args (strip rest)
  | If c a b rest =>
      match strip a, strip b with
      | Nil, Nil => if only_name c then strip rest else If c Nil Nil (strip rest)
      | a, b => If c a b (strip rest)
      end
  | Fun n ps body rest => Fun n ps (strip body) (strip rest)
  end.

Definition strip_fun (f : string * (list string * block)) : string * (list string * block) :=
  (fst f, (fst (snd f), strip (snd (snd f)))).

(** States that differ in the functions' messages only *)
Record alike (s t : state) : Prop := {
  al_vars : vars s = vars t; al_cache : cache s = cache t; al_funs : map strip_fun (funs s) = funs t;
  al_up : up s = up t; al_incs : incs s = incs t; al_failed : failed s = failed t }.

Definition matches (o p : outcome) : Prop :=
  match o, p with
  | Went s, Went t | Left s, Left t => alike s t
  | Fatal, Fatal | Stuck, Stuck => True
  | _, _ => False
  end.

Section Strip.
Variables (env : string -> string) (before after : kind -> list path) (d : disk).

Notation run_with := (run_with env before after d).
Notation command := (command env before after d).

Lemma alike_value : forall s t n, alike s t -> value s n = value t n.
Proof. intros s t n []. unfold value. now rewrite al_vars0, al_cache0. Qed.

Lemma alike_pieces : forall s t ps, alike s t -> pieces_value env s ps = pieces_value env t ps.
Proof.
  intros s t ps A. assert (P : forall p, piece_value env s p = piece_value env t p).
  { intros []; unfold piece_value; now rewrite ?(alike_value s t _ A). }
  induction ps as [|p ps IH]; [reflexivity|]. cbn. rewrite P, IH. reflexivity.
Qed.

Lemma alike_args : forall s t l, alike s t -> expand_args env s l = expand_args env t l.
Proof.
  intros s t l A. induction l as [|a l IH]; [reflexivity|]. cbn. rewrite IH. f_equal.
  unfold expand_arg. destruct (quoted a); [|destruct (pieces a) as [|[] []]]; now rewrite ?(alike_pieces s t _ A).
Qed.

Lemma alike_atom : forall s t l, alike s t -> atom s l = atom t l.
Proof.
  intros s t l A. assert (D : forall a, side s a = side t a) by (intro a; unfold side; now rewrite (alike_value s t _ A)).
  unfold atom. destruct l as [|a [|o [|b []]]]; try reflexivity.
  - now rewrite (alike_value s t _ A).
  - now rewrite !D.
Qed.

Lemma alike_condition : forall s t c, alike s t -> condition env s c = condition env t c.
Proof.
  intros s t c A. unfold condition. rewrite (alike_args s t c A).
  induction (split_on "OR" [] (expand_args env t c)) as [|l ls IH]; [reflexivity|]. cbn. rewrite IH.
  assert (E : all_hold s (split_on "AND" [] l) = all_hold t (split_on "AND" [] l)).
  { induction (split_on "AND" [] l) as [|m ms IH']; [reflexivity|]. cbn. rewrite IH'.
    unfold negated. destruct m as [|a m]; [reflexivity|]. destruct (keyword "NOT" a); now rewrite (alike_atom s t _ A). }
  now rewrite E.
Qed.

Lemma only_name_some : forall s c, only_name c = true -> exists t, condition env s c = Some t.
Proof.
  intros s [|[[] ps] []] H; try discriminate; cbn in H. destruct ps as [|[w| | |] []]; try discriminate; cbn in H.
  apply negb_true_iff, orb_false_iff in H as (H & O). apply orb_false_iff in H as (N & A).
  unfold condition. cbn. rewrite O. cbn. rewrite A. cbn. rewrite N. eexists. reflexivity.
Qed.

Lemma alike_set : forall s t n l, alike s t -> matches (do_set n l s) (do_set n l t).
Proof.
  intros s t n l A. assert (C : forall f v, matches (Went (store_cache f n v s)) (Went (store_cache f n v t))).
  { intros f v. unfold store_cache. destruct A as [V C F U I X]. rewrite C. destruct f; [|destruct (cache t n)];
    cbn; constructor; cbn; congruence. }
  assert (W : forall v, matches (Went (with_var n v s)) (Went (with_var n v t))).
  { intro v. destruct A. cbn. constructor; cbn; congruence. }
  assert (P : forall v, matches (Went (with_up n v s)) (Went (with_up n v t))).
  { intro v. destruct A. cbn. constructor; cbn; congruence. }
  unfold do_set. destruct (rev l) as [|a [|b [|c [|e vs]]]]; [exact I| | | |];
    repeat match goal with |- context [if ?x then _ else _] => destruct x end; auto.
Qed.

Lemma alike_find : forall k s t n x l, alike s t -> matches (do_find before after d k n x l s) (do_find before after d k n x l t).
Proof.
  intros k s t n x l A. unfold do_find. destruct (requests Nowhere l _) as [r|]; [|exact I].
  unfold already. destruct A as [V C F U I X]. rewrite C. destruct (match cache t n with Some v => _ | None => _ end).
  - cbn. now constructor.
  - cbv zeta. destruct (first_file _ _) as [p|].
    + cbn. constructor; cbn; congruence.
    + destruct (needed r); cbn; [exact Logic.I|]. constructor; cbn; congruence.
Qed.

Lemma alike_built_in : forall n l s t, alike s t -> matches (built_in before after d n l s) (built_in before after d n l t).
Proof.
  intros n l s t A.
  assert (W : forall x v, matches (Went (with_var x v s)) (Went (with_var x v t))).
  { intros x v. destruct A. cbn. constructor; cbn; congruence. }
  assert (L : forall x, listed s x = listed t x) by (intro x; unfold listed; now rewrite (alike_value s t _ A)).
  unfold built_in.
  destruct (String.eqb n "set"). { destruct l as [|(?, x) l]; [exact I|now apply alike_set]. }
  destruct (String.eqb n "find_library"). { destruct l as [|(?, x) [|(?, y) l]]; try exact I. now apply alike_find. }
  destruct (String.eqb n "find_file"). { destruct l as [|(?, x) [|(?, y) l]]; try exact I. now apply alike_find. }
  destruct (String.eqb n "get_filename_component").
  { destruct l as [|(?, x) [|(?, y) [|w []]]]; try exact I. destruct (keyword "DIRECTORY" w); [apply W|].
    destruct (keyword "NAME" w); [apply W|exact I]. }
  destruct (String.eqb n "string").
  { destruct l as [|a [|b0 [|(?, w) [|(?, x) [|(?, u) []]]]]]; try exact I;
    destruct w as [|c w]; try exact I; destruct c as [[] [] [] [] [] [] [] []]; try exact I.
    destruct (keyword "REGEX" a && keyword "MATCH" b0); [apply W|exact I]. }
  destruct (String.eqb n "list").
  { destruct l as [|a [|(?, x) l]]; try exact I. rewrite !L. destruct (keyword "FIND" a).
    { destruct l as [|(?, y) [|(?, i) []]]; try exact I. apply W. }
    destruct (keyword "GET" a).
    { destruct l as [|(?, i) [|(?, y) []]]; try exact I. destruct (to_number i); [apply W|exact I]. }
    destruct (keyword "APPEND" a); [apply W|exact I]. }
  destruct (String.eqb n "include_directories"); [|exact I].
  destruct A. cbn. constructor; cbn; congruence.
Qed.

Lemma alike_fun : forall n l, find_fun n (map strip_fun l) =
  match find_fun n l with Some (ps, b) => Some (ps, strip b) | None => None end.
Proof.
  induction l as [|(m, (ps, b)) l IH]; [reflexivity|]. cbn. destruct (String.eqb m n); [reflexivity|exact IH].
Qed.

Lemma alike_var : forall s t n v, alike s t -> alike (with_var n v s) (with_var n v t).
Proof. intros s t n v []. constructor; cbn; congruence. Qed.

Lemma alike_bind : forall ps l s t, alike s t ->
  match bind ps l s, bind ps l t with Some s', Some t' => alike s' t' | None, None => True | _, _ => False end.
Proof.
  induction ps as [|p ps IH]; intros l s t A; cbn; [now apply alike_var|].
  destruct l as [|(?, v) l]; [exact I|]. apply IH. now apply alike_var.
Qed.

Variables call1 call2 : block -> state -> outcome.
Hypothesis calls : forall b s t, alike s t -> matches (call1 b s) (call2 (strip b) t).

Lemma alike_command : forall n args s t, alike s t -> matches (command call1 n args s) (command call2 n args t).
Proof.
  intros n args s t A. unfold Cmake.command. rewrite (alike_args s t args A). destruct (String.eqb n "return"); [exact A|].
  destruct (String.eqb n "message").
  { destruct (expand_args env t args) as [|a l]; [exact A|]. destruct (keyword "SEND_ERROR" a); [|exact A].
    destruct A. cbn. constructor; cbn; congruence. }
  pose proof (al_funs s t A) as F. rewrite <- F. rewrite alike_fun. destruct (find_fun n (funs s)) as [(ps, b)|].
  - assert (E : alike (enter s) (enter t)) by (destruct A; constructor; cbn; congruence).
    pose proof (alike_bind ps (expand_args env t args) _ _ E) as B.
    destruct (bind ps (expand_args env t args) (enter s)) as [s'|], (bind ps (expand_args env t args) (enter t)) as [t'|]; try contradiction; [|exact I].
    pose proof (calls b s' t' B) as C.
    destruct (call1 b s') as [s2|s2| |], (call2 (strip b) t') as [t2|t2| |]; try contradiction; try exact I;
      destruct A, C; cbn; constructor; cbn; congruence.
  - now apply alike_built_in.
Qed.

Lemma strip_run : forall b s t, alike s t -> matches (run_with call1 b s) (run_with call2 (strip b) t).
Proof.
  induction b as [|n args rest IH|c a IHa b IHb rest IH|n ps body _ rest IH]; intros s t A.
  - exact A.
  - cbn [strip]. destruct (note n args) eqn:N.
    + unfold note in N. apply andb_true_iff in N as (N & M). apply String.eqb_eq in N. subst n.
      cbn [Cmake.run_with]. unfold Cmake.command. cbn [String.eqb Ascii.eqb Bool.eqb].
      destruct args as [|[q ps] args]; [now apply IH|].
      assert (K : (match expand_args env s ({| quoted := q; pieces := ps |} :: args) with
                   | a :: _ => if keyword "SEND_ERROR" a then with_failure s else s
                   | [] => s
                   end) = s).
      { cbn in M. destruct q; [reflexivity|]. cbn in M. destruct ps as [|[w| | |] []]; try discriminate.
        cbn. apply negb_true_iff in M. unfold keyword. cbn. now rewrite M. }
      rewrite K. now apply IH.
    + cbn [Cmake.run_with]. pose proof (alike_command n args s t A) as C.
      destruct (command call1 n args s), (command call2 n args t); try contradiction; try exact I; [now apply IH|exact C].
  - assert (D : matches (run_with call1 (If c a b rest) s) (run_with call2 (If c (strip a) (strip b) (strip rest)) t)).
    { cbn [Cmake.run_with]. rewrite (alike_condition s t c A). destruct (condition env t c) as [[]|]; [| |exact I].
      - pose proof (IHa s t A) as R.
        destruct (run_with call1 a s), (run_with call2 (strip a) t); try contradiction; try exact I; [now apply IH|exact R].
      - pose proof (IHb s t A) as R.
        destruct (run_with call1 b s), (run_with call2 (strip b) t); try contradiction; try exact I; [now apply IH|exact R]. }
    cbn [strip]. destruct (strip a) eqn:SA; try exact D. destruct (strip b) eqn:SB; try exact D.
    destruct (only_name c) eqn:O; [|exact D]. cbn [Cmake.run_with] in D |- *.
    destruct (only_name_some t c O) as (x & X). rewrite X in D. destruct x; exact D.
  - cbn [strip Cmake.run_with]. apply IH. destruct A. constructor; cbn; try congruence. f_equal. exact al_funs0.
Qed.

End Strip.

Theorem strip_same : forall env before after d depth b s t, alike s t ->
  matches (run env before after d depth b s) (run env before after d depth (strip b) t).
Proof.
  induction depth as [|depth IH]; intros b s t A; cbn [run]; apply strip_run; auto. intros. exact I.
Qed.

Lemma start_alike : forall vs, alike (start vs) (start vs).
Proof. intro vs. now constructor. Qed.

(** * The text *)

Definition block_of (o : option block) : block := match o with Some b => b | None => Nil end.

Definition the_block : block := Eval vm_compute in strip (block_of (read_cmake FindANSAK_cmake)).

Lemma the_block_read : exists b, read_cmake FindANSAK_cmake = Some b /\ strip b = the_block.
Proof. exists (block_of (read_cmake FindANSAK_cmake)). split; vm_compute; reflexivity. Qed.

(** * In parts *)

Fixpoint take (n : nat) (b : block) : block :=
  match n, b with
  | O, _ | _, Nil => Nil
  | S n, Do x args rest => Do x args (take n rest)
  | S n, If c a b rest => If c a b (take n rest)
  | S n, Fun x ps body rest => Fun x ps body (take n rest)
  end.

Fixpoint skip (n : nat) (b : block) : block :=
  match n, b with
  | O, b => b
  | _, Nil => Nil
  | S n, Do _ _ rest | S n, If _ _ _ rest | S n, Fun _ _ _ rest => skip n rest
  end.

Lemma run_parts : forall env before after d call n b s,
  run_with env before after d call b s =
  match run_with env before after d call (take n b) s with
  | Went s' => run_with env before after d call (skip n b) s'
  | other => other
  end.
Proof.
  induction n as [|n IH]; intros b s; [reflexivity|]. destruct b as [|x args rest|c a b rest|x ps body rest]; [reflexivity| | |].
  - cbn [take skip run_with]. destruct (command env before after d call x args s); auto.
  - cbn [take skip run_with]. destruct (condition env s c) as [t|]; [|reflexivity].
    destruct (if t then run_with env before after d call a s else run_with env before after d call b s); auto.
  - cbn [take skip run_with]. apply IH.
Qed.
