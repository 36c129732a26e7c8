(** Running the text of CMakeLists.txt. *)
From Coq Require Import ZArith List Bool String Ascii Lia.
From Verif Require Import Gen.TextLists Model.Make Model.Cmake Model.Lists Model.ListsWanted.
Import ListNotations.
Open Scope string_scope.
Open Scope list_scope.

Definition lists_block : block := Eval vm_compute in match read_lists CMakeLists_txt with Some b => b | None => Nil end.
Definition packaging_block : block := Eval vm_compute in match read_lists packaging_cmake with Some b => b | None => Nil end.

Lemma lists_read : read_lists CMakeLists_txt = Some lists_block.
Proof. vm_compute. reflexivity. Qed.

Lemma packaging_read : read_lists packaging_cmake = Some packaging_block.
Proof. vm_compute. reflexivity. Qed.

Fixpoint first (k : nat) (b : block) : block :=
  match k, b with
  | S k, Do n a rest => Do n a (first k rest)
  | S k, If c x y rest => If c x y (first k rest)
  | _, _ => Nil
  end.

Fixpoint beyond (k : nat) (b : block) : block :=
  match k, b with
  | S k, Do _ _ rest | S k, If _ _ _ rest => beyond k rest
  | S k, Fun n p body rest => b
  | _, b => b
  end.

Lemma bind_bind : forall o k j, bind (bind o k) j = bind o (fun s => bind (k s) j).
Proof. now intros []. Qed.

Lemma bind_ext : forall o k j, (forall s, k s = j s) -> bind o k = bind o j.
Proof. intros [s| |] k j H; cbn; auto. Qed.

Lemma run_parts : forall w f k b s, run w f b s = bind (run w f (first k b) s) (run w f (beyond k b)).
Proof.
  intros w f k. induction k as [|k IH]; intros b s; [reflexivity|]. destruct b as [|n a rest|c x y rest|]; try reflexivity.
  - cbn. destruct (expand_args w s a) as [l|]; [|reflexivity]. rewrite bind_bind. apply bind_ext. intro t. apply IH.
  - cbn. destruct (condition w s c); [|reflexivity|reflexivity]. rewrite bind_bind. apply bind_ext. intro t. apply IH.
Qed.

(** * Variables *)

Lemma assoc_assign : forall n v l x, assoc x (assign n v l) = if String.eqb x n then Some v else assoc x l.
Proof.
  intros n v l x. induction l as [|(y, u) l IH]; cbn.
  - destruct (x =? n); reflexivity.
  - destruct (String.eqb_spec n y) as [->|N]; cbn.
    + destruct (x =? y); reflexivity.
    + rewrite IH. destruct (String.eqb_spec x y) as [->|M]; [|reflexivity].
      destruct (String.eqb_spec y n); [congruence|reflexivity].
Qed.

Lemma value_put : forall w n v s x, value w (put n v s) x = if String.eqb x n then Some v else value w s x.
Proof. intros. unfold value, put. cbn. rewrite assoc_assign. now destruct (x =? n). Qed.

Lemma value_unset : forall w n s x, value w (unset n s) x = if String.eqb x n then stored w n else value w s x.
Proof.
  intros. unfold value, unset. cbn. rewrite assoc_assign. now destruct (String.eqb_spec x n) as [->|].
Qed.

Lemma value_ask : forall w r s x, value w (ask r s) x = value w s x.
Proof. reflexivity. Qed.

Lemma asked_put : forall n v s, asked (put n v s) = asked s.
Proof. reflexivity. Qed.
Lemma asked_unset : forall n s, asked (unset n s) = asked s.
Proof. reflexivity. Qed.
Lemma asked_ask : forall r s, asked (ask r s) = asked s ++ [r].
Proof. reflexivity. Qed.

(** What is not set by the files is as it was. *)
Definition kept (w : world) (s : state) : Prop := forall x, existsb (String.eqb x) own = false -> value w s x = given w x.

Lemma member : forall n l, existsb (String.eqb n) l = true -> forall x, existsb (String.eqb x) l = false -> String.eqb x n = false.
Proof.
  intros n l H x X. destruct (String.eqb_spec x n) as [->|]; [congruence|reflexivity].
Qed.

Lemma kept_put : forall w n v s, existsb (String.eqb n) own = true -> kept w s -> kept w (put n v s).
Proof. intros w n v s H K x X. rewrite value_put, (member n own H x X). now apply K. Qed.

Lemma kept_unset : forall w n s, existsb (String.eqb n) own = true -> kept w s -> kept w (unset n s).
Proof. intros w n s H K x X. rewrite value_unset, (member n own H x X). now apply K. Qed.

Lemma kept_ask : forall w r s, kept w s -> kept w (ask r s).
Proof. intros w r s K x X. rewrite value_ask. now apply K. Qed.

Arguments put : simpl never.
Arguments unset : simpl never.
Arguments ask : simpl never.
Arguments value : simpl never.
Arguments given : simpl never.
Arguments truth : simpl never.
Arguments contains : simpl never.
Arguments strless : simpl never.
Arguments version_less : simpl never.
Arguments elements : simpl never.
Arguments operator : simpl never.
Arguments lower : simpl never.
Arguments before_release : simpl never.
Arguments split_at : simpl never.
Arguments listed : simpl never.
Arguments run : simpl never.
Arguments setting : simpl never.

Lemma s_nil : forall w f s, run w f Nil s = Went s.
Proof. reflexivity. Qed.

Lemma s_do : forall w f n a rest s l, expand_args w s a = Some l ->
  run w f (Do n a rest) s = bind (command w f n l s) (run w f rest).
Proof. intros. cbn. unfold run at 1. fold run. now rewrite H. Qed.

Lemma s_if : forall w f c x y rest s b, condition w s c = Holds b ->
  run w f (If c x y rest) s = bind (run w f (if b then x else y) s) (run w f rest).
Proof. intros. unfold run at 1. fold run. now rewrite H. Qed.

Lemma truth_1 : truth "1" = true. Proof. reflexivity. Qed.
Lemma truth_0 : truth "0" = false. Proof. reflexivity. Qed.

(** A value within if() *)
Lemma itself_operator : forall w v, itself w v -> operator (false, v) = false.
Proof. intros w v (_ & O & _). unfold operator. exact O. Qed.

Lemma itself_not : forall w v x, itself w v -> In x operators -> String.eqb v x = false.
Proof.
  intros w v x (_ & O & _) I. destruct (String.eqb_spec v x) as [->|]; [|reflexivity].
  rewrite (proj2 (existsb_exists _ _)) in O; [discriminate|]. exists x. split; [exact I|apply String.eqb_refl].
Qed.

Lemma itself_value : forall w s v, itself w v -> kept w s -> value w s v = None.
Proof. intros w s v (_ & _ & N & G) K. rewrite K by exact N. exact G. Qed.

Lemma itself_elements : forall w v, itself w v -> elements v = [v].
Proof. now intros w v (E & _). Qed.

Lemma itself_some : forall w x, itself w (setting w x) -> given w x = Some (setting w x).
Proof.
  intros w x (E & _). unfold setting in *. destruct (given w x); [reflexivity|]. discriminate E.
Qed.
