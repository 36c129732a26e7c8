(** Paths as cmake writes them. *)
From Coq Require Import ZArith List Bool String Ascii Lia.
From Verif Require Import Model.Make Model.Cmake Model.FindText.
Import ListNotations.
Open Scope string_scope.
Open Scope list_scope.

Lemma app_nil_s : forall s, (s ++ "")%string = s.
Proof. induction s as [|a s IH]; cbn; [reflexivity|now rewrite IH]. Qed.

Lemma app_assoc_s : forall a b c, ((a ++ b) ++ c)%string = (a ++ (b ++ c))%string.
Proof. induction a as [|x a IH]; intros b c; cbn; [reflexivity|now rewrite IH]. Qed.

Lemma snoc_app : forall w c s, (snoc w c ++ s)%string = (w ++ String c s)%string.
Proof. intros. unfold snoc. now rewrite app_assoc_s. Qed.

Lemma free_app : forall x a b, free x (a ++ b)%string = free x a && free x b.
Proof. induction a as [|y a IH]; intro b; cbn; [reflexivity|]. now rewrite IH, andb_assoc. Qed.

(** * Splitting *)

Lemma split_free : forall x s cur, free x s = true -> split_at x cur s = [(cur ++ s)%string].
Proof.
  induction s as [|a s IH]; intros cur F; cbn in F |- *; [now rewrite app_nil_s|].
  apply andb_true_iff in F as (A & F). destruct (Ascii.eqb a x); [discriminate|]. now rewrite IH, snoc_app.
Qed.

Lemma split_app : forall x a cur b, split_at x cur (a ++ String x b)%string = split_at x cur a ++ split_at x "" b.
Proof.
  induction a as [|y a IH]; intros cur b; cbn.
  - now rewrite Ascii.eqb_refl.
  - destruct (Ascii.eqb y x); cbn; now rewrite IH.
Qed.

Lemma path_of_app : forall a b, path_of (a ++ String "/" b)%string = path_of a ++ path_of b.
Proof. intros. unfold path_of. rewrite split_app. apply filter_app. Qed.

Lemma path_of_name : forall c, proper c -> path_of c = [c].
Proof.
  intros c (N & F & _). unfold path_of. rewrite split_free by exact F. cbn.
  destruct (String.eqb c "") eqn:E; [|reflexivity]. apply String.eqb_eq in E. contradiction.
Qed.

Lemma path_of_slash : forall b, path_of (String "/" b) = path_of b.
Proof. intro b. exact (path_of_app "" b). Qed.

Lemma path_of_slashed : forall p a, Forall proper p -> path_of (a ++ slashed p)%string = path_of a ++ p.
Proof.
  induction p as [|c p IH]; intros a F; cbn [slashed].
  - now rewrite app_nil_s, app_nil_r.
  - inversion F as [|? ? C F']; subst.
    rewrite path_of_app. rewrite (IH c F'). now rewrite (path_of_name c C).
Qed.

Lemma path_of_spell : forall p, Forall proper p -> path_of (spell p) = p.
Proof.
  intros [|c p] F; [reflexivity|]. unfold spell. inversion F as [|? ? C F']; subst.
  destruct (drive c).
  - destruct p as [|b p].
    + rewrite path_of_app. now rewrite (path_of_name c C).
    + rewrite path_of_slashed by exact F'. now rewrite (path_of_name c C).
  - exact (path_of_slashed (c :: p) "" F).
Qed.

Lemma spell_inj : forall p q, Forall proper p -> Forall proper q -> spell p = spell q -> p = q.
Proof. intros p q P Q E. rewrite <- (path_of_spell p P), <- (path_of_spell q Q). now rewrite E. Qed.

(** * Directory and name *)

Definition total (before cur : string) (seen : bool) : string :=
  if seen then (before ++ String "/" cur)%string else cur.

Lemma last_slash_free : forall s before cur seen, free "/" s = true ->
  last_slash before cur s seen = (seen, before, (cur ++ s)%string).
Proof.
  induction s as [|a s IH]; intros before cur seen F; cbn in F |- *; [now rewrite app_nil_s|].
  apply andb_true_iff in F as (A & F). destruct (Ascii.eqb a "/"); [discriminate|]. now rewrite IH, snoc_app.
Qed.

Lemma last_slash_app : forall a n before cur seen, free "/" n = true ->
  last_slash before cur (a ++ String "/" n)%string seen = (true, (total before cur seen ++ a)%string, n).
Proof.
  induction a as [|x a IH]; intros n before cur seen F.
  - cbn [append last_slash]. rewrite Ascii.eqb_refl. rewrite last_slash_free by exact F. unfold total. cbn.
    now rewrite app_nil_s.
  - cbn [append last_slash]. destruct (Ascii.eqb x "/") eqn:X.
    + apply Ascii.eqb_eq in X. subst x. rewrite IH by exact F. fold (total before cur seen). f_equal. f_equal.
      unfold total at 1. now rewrite app_assoc_s.
    + rewrite IH by exact F. f_equal. f_equal. unfold total. destruct seen.
      * rewrite !app_assoc_s. cbn. now rewrite snoc_app.
      * now rewrite snoc_app.
Qed.

(** [p] without a last name is still on its drive. *)
Definition rooted (p : path) : Prop := match p with [] => False | c :: rest => drive c = true -> rest <> [] end.

Definition stem (q : path) : string :=
  match q with
  | [] => ""
  | c :: rest => if drive c then (c ++ slashed rest)%string else slashed q
  end.

Lemma slashed_snoc : forall q c, slashed (q ++ [c]) = (slashed q ++ String "/" c)%string.
Proof.
  induction q as [|x q IH]; intro c; cbn; [now rewrite app_nil_s|]. rewrite IH. now rewrite app_assoc_s.
Qed.

Lemma spell_snoc : forall q c, rooted (q ++ [c]) -> spell (q ++ [c]) = (stem q ++ String "/" c)%string.
Proof.
  intros [|x q] c R.
  - cbn in R |- *. destruct (drive c); [now specialize (R eq_refl)|]. now rewrite app_nil_s.
  - unfold spell, stem. cbn [List.app]. destruct (drive x).
    + assert (E : match q ++ [c] with [] => "/" | _ :: _ => slashed (q ++ [c]) end = slashed (q ++ [c])) by now destruct q.
      rewrite E. rewrite slashed_snoc. now rewrite app_assoc_s.
    + change (x :: q ++ [c]) with ((x :: q) ++ [c]). apply slashed_snoc.
Qed.

Lemma drive_long : forall c s, drive c = true -> s <> "" -> drive (c ++ s)%string = false.
Proof.
  intros [|a [|b [|e c]]] s D S; try discriminate; cbn in D; destruct b as [[] [] [] [] [] [] [] []]; try discriminate.
  cbn. destruct s; [contradiction|reflexivity].
Qed.

Lemma stem_spell : forall q, (if String.eqb (stem q) "" then "/" else if drive (stem q) then (stem q ++ "/")%string else stem q) = spell q.
Proof.
  intros [|c q]; [reflexivity|]. unfold stem, spell. destruct (drive c) eqn:D.
  - assert (N : String.eqb (c ++ slashed q)%string "" = false) by (destruct c; [discriminate|reflexivity]). rewrite N.
    destruct q as [|b q].
    + cbn [slashed]. rewrite app_nil_s, D. reflexivity.
    + now rewrite drive_long.
  - cbn [slashed]. cbn [String.eqb]. unfold drive.
    destruct (c ++ slashed q)%string as [|x [|y r]]; try reflexivity;
    destruct x as [[] [] [] [] [] [] [] []]; reflexivity.
Qed.

Lemma directory_spell : forall p, rooted p -> Forall proper p -> directory_of (spell p) = spell (removelast p).
Proof.
  intros p R F. destruct p as [|x p] using rev_ind; [contradiction|]. clear IHp.
  rewrite removelast_last. rewrite spell_snoc by exact R. unfold directory_of.
  apply Forall_app in F as (_ & F). inversion F as [|? ? (_ & C & _) _]; subst.
  rewrite last_slash_app by exact C. cbn [total append]. apply stem_spell.
Qed.

Lemma name_spell : forall p, rooted p -> Forall proper p -> name_of (spell p) = last p "".
Proof.
  intros p R F. destruct p as [|x p] using rev_ind; [contradiction|]. clear IHp.
  rewrite last_last. rewrite spell_snoc by exact R. unfold name_of.
  apply Forall_app in F as (_ & F). inversion F as [|? ? (_ & C & _) _]; subst.
  now rewrite last_slash_app by exact C.
Qed.

(** * Truth *)

Lemma upper_app : forall a b, upper (a ++ b) = (upper a ++ upper b)%string.
Proof. induction a as [|x a IH]; intro b; cbn; [reflexivity|now rewrite IH]. Qed.

Lemma free_differs : forall x e s, free x e = true -> free x s = false -> String.eqb e s = false.
Proof.
  intros x e s E S. apply String.eqb_neq. intro X. subst. congruence.
Qed.

Lemma ends_with_app : forall x e a b, free x e = true -> ends_with e (a ++ String x b)%string = ends_with e b.
Proof.
  intros x e a b E. assert (N : forall a, free x (a ++ String x b)%string = false).
  { clear a. induction a as [|y a IH]; cbn; [now rewrite Ascii.eqb_refl|]. now rewrite IH, andb_false_r. }
  induction a as [|y a IH].
  - cbn [append ends_with]. rewrite (free_differs x e (String x b)); [reflexivity|exact E|exact (N "")].
  - cbn [append ends_with]. rewrite (free_differs x e (String y (a ++ String x b))); [exact IH|exact E|exact (N (String y a))].
Qed.

Definition false_words : list string := [""; "0"; "OFF"; "NO"; "FALSE"; "N"; "IGNORE"; "NOTFOUND"].

Lemma truth_slash : forall a b, ends_with "-NOTFOUND" (upper b) = false -> truth (a ++ String "/" b)%string = true.
Proof.
  intros a b E. unfold truth. rewrite upper_app. cbn [upper]. change (upper_letter "/") with "/"%char.
  rewrite ends_with_app by reflexivity. rewrite E, orb_false_r. apply negb_true_iff.
  assert (N : forall a, free "/" (a ++ String "/" (upper b))%string = false).
  { clear. induction a as [|y a IH]; cbn; [reflexivity|]. now rewrite IH, andb_false_r. }
  fold false_words. assert (W : forallb (free "/") false_words = true) by reflexivity.
  induction false_words as [|w l IH]; [reflexivity|]. cbn in W |- *. apply andb_true_iff in W as (W & L).
  rewrite (IH L), orb_false_r. rewrite String.eqb_sym. now apply (free_differs "/").
Qed.

Lemma truth_spell : forall p, rooted p -> Forall proper p -> truth (spell p) = true.
Proof.
  intros p R F. destruct p as [|x p] using rev_ind; [contradiction|]. clear IHp.
  rewrite spell_snoc by exact R. apply truth_slash.
  apply Forall_app in F as (_ & F). now inversion F as [|? ? (_ & _ & _ & C) _].
Qed.

Lemma spell_slash : forall p, free "/" (spell p) = false.
Proof.
  intros [|c p]; [reflexivity|]. unfold spell. destruct (drive c); [|reflexivity]. rewrite free_app.
  destruct p; cbn; now rewrite andb_false_r.
Qed.

Lemma spell_word : forall p w, free "/" w = true -> String.eqb (spell p) w = false.
Proof. intros p w W. rewrite String.eqb_sym. apply (free_differs "/"); [exact W|apply spell_slash]. Qed.
