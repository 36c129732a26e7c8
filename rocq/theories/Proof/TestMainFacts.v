From Coq Require Import ZArith List Bool Lia String.
From Verif Require Import Machine.
From Verif.Model Require Import TestData TestMain.
From Verif.Spec Require Import Text TestData.
From Verif.Proof Require Import TestDataFacts.
Import ListNotations.
Local Open Scope Z_scope.

Lemma same_name_spec a : forall b, same_name a b = true <-> a = b.
Proof.
  induction a as [|x a IH]; intros [|y b]; cbn [same_name]; [easy|easy|easy|].
  rewrite andb_true_iff, Z.eqb_eq, IH. split; [intros [-> ->]; reflexivity|intros E; injection E; auto].
Qed.
Lemma same_name_refl a : same_name a a = true. Proof. now apply same_name_spec. Qed.
Lemma same_name_other a b : a <> b -> same_name a b = false.
Proof. intros H. destruct (same_name a b) eqn:E; [|reflexivity]. now apply same_name_spec in E. Qed.

Lemma main_usage fuel w args : List.length args <> 2%nat -> main fuel w args = Done (1, w).
Proof. destruct args as [|a [|b [|c args]]]; cbn [List.length]; [reflexivity|reflexivity|lia|reflexivity]. Qed.
Lemma main_missing fuel w i o : found_by_stat w i = false -> main fuel w [i; o] = Done (2, w).
Proof. intros H. cbn [main]. now rewrite H. Qed.

Lemma main_converts fuel w i o es cs rest : i <> o -> found_by_stat w i = true -> readable w i = true -> writable w o = true ->
  content w i = file es ++ rest -> Forall entry_ok es -> es <> [] -> Z.of_nat (List.length es) <= 0x7fffffff ->
  listing es cs -> stop rest -> (List.length es < fuel)%nat ->
  exists w', main fuel w [i; o] = Done (0, w') /\ visible (content w' o) = array_of cs /\ found_by_stat w' o = true /\
    forall n, n <> o -> content w' n = content w n /\ found_by_stat w' n = found_by_stat w n.
Proof.
  intros Hd Hf Hr Hw Hc He Hne Hn Hl Hs Hfu. destruct (process_lists es cs rest fuel He Hne Hn Hl Hs Hfu) as [out [Ho Hv]].
  cbn [main]. rewrite Hf. cbn [negb]. rewrite Hr, Hw. unfold open_for_writing. rewrite Hw. unfold read_all.
  unfold put at 1. cbn [content]. rewrite (same_name_other i o Hd), Hc, Ho. cbn [bind].
  exists (write_all true (put w o []) o out). split; [reflexivity|]. unfold write_all, put; cbn [content]. split.
  - now rewrite same_name_refl.
  - cbn [found_by_stat]. rewrite same_name_refl. split; [reflexivity|]. intros n Hno. now rewrite !(same_name_other n o Hno).
Qed.

Lemma main_codes fuel w args c w' : main fuel w args = Done (c, w') ->
  c = 1 /\ w' = w /\ List.length args <> 2%nat \/
  c = 2 /\ w' = w /\ (exists i o, args = [i; o] /\ found_by_stat w i = false) \/
  c = 0 /\ exists i o, args = [i; o] /\ found_by_stat w i = true.
Proof.
  destruct args as [|i [|o [|x args]]]; cbn [main];
    try (intros E; injection E as <- <-; left; split; [reflexivity|split; [reflexivity|cbn [List.length]; lia]]).
  destruct (found_by_stat w i) eqn:Hf; cbn [negb].
  - destruct (process _ _) as [out| |]; cbn [bind]; intros E; try discriminate E. injection E as <- _. right; right. split; [reflexivity|]. now exists i, o.
  - intros E; injection E as <- <-. right; left. split; [reflexivity|]. split; [reflexivity|]. now exists i, o.
Qed.

Lemma process_nothing fuel : process fuel [] = Done []. Proof. reflexivity. Qed.

Lemma main_no_outfile fuel w i o w' : found_by_stat w i = true -> writable w o = false ->
  main fuel w [i; o] = Done (0, w') -> w' = w.
Proof.
  intros Hf Hw. cbn [main]. rewrite Hf. cbn [negb]. unfold open_for_writing. rewrite Hw.
  destruct (process _ _) as [out| |]; cbn [bind]; intros E; try discriminate E. now injection E as <-.
Qed.
Lemma main_no_infile fuel w i o : found_by_stat w i = true -> readable w i = false -> writable w o = true ->
  exists w', main fuel w [i; o] = Done (0, w') /\ content w' o = [].
Proof.
  intros Hf Hr Hw. cbn [main]. rewrite Hf. cbn [negb]. rewrite Hr, Hw. unfold open_for_writing. rewrite Hw. unfold read_all.
  rewrite process_nothing. cbn [bind]. eexists. split; [reflexivity|]. unfold write_all, put; cbn [content]. now rewrite same_name_refl.
Qed.
Lemma main_same_file fuel w f : found_by_stat w f = true -> writable w f = true ->
  exists w', main fuel w [f; f] = Done (0, w') /\ content w' f = [].
Proof.
  intros Hf Hw. cbn [main]. rewrite Hf. cbn [negb]. rewrite Hw. unfold open_for_writing. rewrite Hw. unfold read_all.
  replace (if readable w f then content (put w f []) f else []) with (@nil Z).
  2:{ unfold put; cbn [content]. rewrite same_name_refl. now destruct (readable w f). }
  rewrite process_nothing. cbn [bind]. eexists. split; [reflexivity|]. unfold write_all, put; cbn [content]. now rewrite same_name_refl.
Qed.

(* one file, "in", holding one line; nothing can be written *)
Definition read_only : world :=
  {| found_by_stat := fun n => same_name n (chars "in"); readable := fun n => same_name n (chars "in");
     writable := fun _ => false; content := fun n => if same_name n (chars "in") then file [letter] else [] |}.
Definition free_world : world :=
  {| found_by_stat := fun n => same_name n (chars "in"); readable := fun n => same_name n (chars "in");
     writable := fun _ => true; content := fun n => if same_name n (chars "in") then file [letter] else [] |}.
Lemma main_silent_refuted : exists w i o, found_by_stat w i = true /\ readable w i = true /\ writable w o = false /\
  forall fuel, (9 < fuel)%nat -> main fuel w [i; o] = Done (0, w).
Proof.
  exists read_only, (chars "in"), (chars "out"). split; [reflexivity|]. split; [reflexivity|]. split; [reflexivity|].
  intros fuel H. do 10 (destruct fuel as [|fuel]; [lia|]). reflexivity.
Qed.
Lemma main_overwrites_refuted : exists w f, found_by_stat w f = true /\ content w f <> [] /\
  forall fuel, exists w', main fuel w [f; f] = Done (0, w') /\ content w' f = [].
Proof.
  exists free_world, (chars "in"). split; [reflexivity|]. split; [discriminate|]. intros fuel. apply main_same_file; reflexivity.
Qed.
