(** The text of the script and Model/Nsis.v say the same. *)
From Coq Require Import ZArith List Bool String Ascii Lia.
From Verif Require Import Gen.TextScripts Model.Make Model.Unix Model.Nsis Model.NsisText Spec.Nsis.
From Verif Require Import Spec.Install Proof.Nsis Proof.NsisDone.
Import ListNotations.
Open Scope string_scope.
Open Scope list_scope.

Definition script_of (o : option script) : script :=
  match o with Some s => s | None => {| blocks := []; uninstall_pages := [] |} end.
Definition block_of (o : option (list command)) : list command := match o with Some l => l | None => [] end.

Definition the_script : script := Eval vm_compute in script_of (read_script ansak_string_nsi).

Lemma the_script_read : read_script ansak_string_nsi = Some the_script.
Proof. vm_compute. reflexivity. Qed.

Lemma pages_read : uninstall_pages the_script = [["uninstConfirm"; "un.AreYouSure"]; ["instfiles"]].
Proof. reflexivity. Qed.

(** * un.isEmptyDir *)

Definition empty_dir_block : list command := map Small un_isEmptyDir.

Lemma empty_dir_read : find_block false "un.isEmptyDir" (blocks the_script) = Some empty_dir_block.
Proof. reflexivity. Qed.

Lemma from_small : forall l prog, from_label l (map Small prog) = map Small (from l prog).
Proof.
  induction prog as [|i prog IH]; [reflexivity|]. destruct i; cbn; try exact IH.
  destruct (String.eqb l l0); [reflexivity|exact IH].
Qed.

Lemma perform_small : forall bs inst yes fuel prog s m, execute (the_disk s) fuel prog (mach s) = Some m ->
  perform bs inst yes (S fuel) (map Small prog) s = Some (Done (with_mach m s)).
Proof.
  induction fuel as [|fuel IH]; intros prog s m E.
  - destruct prog; cbn in E |- *; [|discriminate]. inversion E. now destruct s.
  - destruct prog as [|i prog].
    + cbn in E |- *. inversion E. now destruct s.
    + cbn [execute] in E. cbn [map]. change (perform bs inst yes (S (S fuel)) (Small i :: map Small prog) s) with
        (let (m, jump) := step (the_disk s) i (mach s) in
         perform bs inst yes (S fuel) (match jump with Some l => from_label l (map Small prog) | None => map Small prog end) (with_mach m s)).
      destruct (step (the_disk s) i (mach s)) as (m1, jump).
      replace (match jump with Some l => from_label l (map Small prog) | None => map Small prog end)
        with (map Small (match jump with Some l => from l prog | None => prog end))
        by (destruct jump; [symmetry; apply from_small|reflexivity]).
      rewrite (IH _ (with_mach m1 s) m E). now destruct s.
Qed.

(** * The uninstaller *)

Definition removal : list command :=
  map Delete deletions ++
  [PushPlace ["include"; "ansak"]; Call "un.isEmptyDir"; Small (Pop R0); Small (StrCmp R0 "1" "notEmpty");
   RMDir ["include"; "ansak"]; Delete ["FindANSAK.cmake"]; Small (Label "notEmpty"); Delete [uninstaller_name]].

Lemma removal_read : find_block true "Uninstall" (blocks the_script) = Some removal.
Proof. reflexivity. Qed.

Lemma question_read : find_block false "un.AreYouSure" (blocks the_script) =
  Some [AskNo "leaveIt"; Return; Small (Label "leaveIt"); Quit].
Proof. reflexivity. Qed.

(** Where only the error flag has changed *)
Definition but_errors (m m' : machine) : Prop :=
  r0 m' = r0 m /\ r1 m' = r1 m /\ stack m' = stack m /\ searches m' = searches m /\ counter m' = counter m.

Lemma try_it_disk : forall m s, the_disk (try_it m s) = quiet m (the_disk s).
Proof. intros m s. unfold try_it, quiet. destruct (m (the_disk s)) as (r, d). reflexivity. Qed.

Lemma try_it_mach : forall m s, but_errors (mach s) (mach (try_it m s)).
Proof.
  intros m s. unfold try_it, but_errors. destruct (m (the_disk s)) as ([[]|[]], d); cbn; auto 6.
Qed.

Lemma but_errors_trans : forall a b c, but_errors a b -> but_errors b c -> but_errors a c.
Proof. unfold but_errors. intuition congruence. Qed.

Lemma perform_deletions : forall bs inst yes l rest fuel s, exists s',
  the_disk s' = fold_left (fun d p => quiet (unlink (inst ++ p)) d) l (the_disk s) /\ but_errors (mach s) (mach s') /\
  perform bs inst yes (List.length l + fuel) (map Delete l ++ rest) s = perform bs inst yes fuel rest s'.
Proof.
  induction l as [|p l IH]; intros rest fuel s.
  - exists s. repeat split.
  - destruct (IH rest fuel (try_it (unlink (inst ++ p)) s)) as (s' & D & B & P). exists s'. cbn [fold_left map List.app List.length Nat.add].
    rewrite D, try_it_disk. split; [reflexivity|]. split; [|exact P].
    eapply but_errors_trans; [apply try_it_mach|exact B].
Qed.

Section Steps.
Variables (bs : list block) (inst : path) (yes : bool) (fuel : nat) (rest : list command) (s : state).

Lemma step_end : perform bs inst yes (S fuel) [] s = Some (Done s).
Proof. reflexivity. Qed.

Lemma step_delete : forall p,
  perform bs inst yes (S fuel) (Delete p :: rest) s = perform bs inst yes fuel rest (try_it (unlink (inst ++ p)) s).
Proof. reflexivity. Qed.

Lemma step_rmdir : forall p,
  perform bs inst yes (S fuel) (RMDir p :: rest) s = perform bs inst yes fuel rest (try_it (rmdir (inst ++ p)) s).
Proof. reflexivity. Qed.

Lemma step_push : forall p,
  perform bs inst yes (S fuel) (PushPlace p :: rest) s =
  perform bs inst yes fuel rest (with_mach (with_stack (Place (inst ++ p) :: stack (mach s)) (mach s)) s).
Proof. reflexivity. Qed.

Lemma step_call : forall f body s', find_block false f bs = Some body -> perform bs inst yes fuel body s = Some (Done s') ->
  perform bs inst yes (S fuel) (Call f :: rest) s = perform bs inst yes fuel rest s'.
Proof. intros f body s' F P. cbn [perform]. now rewrite F, P. Qed.

Lemma step_small : forall i m jump, step (the_disk s) i (mach s) = (m, jump) ->
  perform bs inst yes (S fuel) (Small i :: rest) s =
  perform bs inst yes fuel (match jump with Some l => from_label l rest | None => rest end) (with_mach m s).
Proof. intros i m jump E. cbn [perform]. now rewrite E. Qed.
End Steps.

Lemma more_fuel : forall bs inst yes fuel cs s r, perform bs inst yes fuel cs s = Some r ->
  forall more, perform bs inst yes (fuel + more) cs s = Some r.
Proof.
  induction fuel as [|fuel IH]; intros cs s r E more; [discriminate|].
  cbn [Nat.add]. cbn [perform] in E |- *.
  destruct cs as [|c cs]; [exact E|]. destruct c; try exact E; try (now apply IH).
  - destruct (find_block false f bs) as [b|]; [|exact E].
    destruct (perform bs inst yes fuel b s) as [[s'|s']|] eqn:F; [| |discriminate].
    + rewrite (IH _ _ _ F). now apply IH.
    + now rewrite (IH _ _ _ F).
  - destruct (step (the_disk s) i (mach s)) as (m, jump). now apply IH.
Qed.

(** Push, Call un.isEmptyDir, Pop $0, StrCmp $0 "1" 0 l *)
Lemma ask_empty : forall inst yes p l rest fuel s, searches (mach s) = [] -> stack (mach s) = [] ->
  exists m, perform (blocks the_script) inst yes (S (S (S (S (22 + fuel)))))
    (PushPlace p :: Call "un.isEmptyDir" :: Small (Pop R0) :: Small (StrCmp R0 "1" l) :: rest) s =
  perform (blocks the_script) inst yes (22 + fuel)
    (if answers_one (the_disk s) (inst ++ p) fresh_machine then rest else from_label l rest) (with_mach m s).
Proof.
  intros inst yes p l rest fuel s Se St. rewrite step_push.
  set (s1 := with_mach (with_stack (Place (inst ++ p) :: stack (mach s)) (mach s)) s).
  destruct (is_empty_dir (the_disk s1) (inst ++ p) [] (mach s1)) as (m1 & C & (t & St1 & T & V) & R).
  { cbn. now rewrite St. }
  { intros k x. cbn. now rewrite Se. }
  unfold call in C. pose proof (perform_small (blocks the_script) inst yes _ _ s1 m1 C) as P. fold empty_dir_block in P.
  rewrite (step_call _ _ _ _ _ _ _ _ _ empty_dir_read (more_fuel _ _ _ _ _ _ _ P (S (S fuel)))).
  change (22 + S (S fuel)) with (S (S (22 + fuel))).
  erewrite step_small with (jump := None) (m := Nsis.set R0 (Text t) (with_stack [] m1)); [|cbn; now rewrite St1].
  pose proof (answers (the_disk s) (inst ++ p)) as A. change (the_disk s1) with (the_disk s) in V. rewrite <- V in A. clear V.
  erewrite step_small; [|reflexivity]. cbn [get r0 Nsis.set mach with_mach]. eexists.
  destruct T as [-> | ->].
  - replace (answers_one (the_disk s) (inst ++ p) fresh_machine) with true by (symmetry; now apply A). reflexivity.
  - replace (answers_one (the_disk s) (inst ++ p) fresh_machine) with false; [reflexivity|].
    destruct (answers_one (the_disk s) (inst ++ p) fresh_machine); [|reflexivity]. destruct A as [A _]. now specialize (A eq_refl).
Qed.

Lemma perform_removal : forall inst yes d, exists s,
  perform (blocks the_script) inst yes 100 removal (begin d) = Some (Done s) /\ the_disk s = uninstall_section inst d.
Proof.
  intros inst yes d. unfold removal.
  destruct (perform_deletions (blocks the_script) inst yes deletions
    [PushPlace ["include"; "ansak"]; Call "un.isEmptyDir"; Small (Pop R0); Small (StrCmp R0 "1" "notEmpty");
     RMDir ["include"; "ansak"]; Delete ["FindANSAK.cmake"]; Small (Label "notEmpty"); Delete [uninstaller_name]]
    85 (begin d)) as (s & D & B & P).
  change (List.length deletions + 85) with 100 in P. rewrite P. clear P.
  unfold uninstall_section. cbn [the_disk begin] in D. rewrite <- D. clear D.
  cbn [mach begin] in B. destruct B as (_ & _ & St & Se & _). cbn in St, Se.
  change 85 with (S (S (S (S (22 + 59))))).
  destruct (ask_empty inst yes ["include"; "ansak"] "notEmpty"
    [RMDir ["include"; "ansak"]; Delete ["FindANSAK.cmake"]; Small (Label "notEmpty"); Delete [uninstaller_name]] 59 s Se St) as (m & E).
  rewrite E. clear E. change (22 + 59) with (S (S (S (S (S 76))))).
  destruct (answers_one (the_disk s) (inst ++ ["include"; "ansak"]) fresh_machine).
  - rewrite step_rmdir, step_delete. erewrite step_small; [|reflexivity]. cbv iota. rewrite step_delete, step_end.
    eexists. split; [reflexivity|]. rewrite try_it_disk. cbn [with_mach the_disk]. now rewrite !try_it_disk.
  - change (from_label "notEmpty" _) with [Delete [uninstaller_name]]. rewrite step_delete, step_end.
    eexists. split; [reflexivity|]. now rewrite try_it_disk.
Qed.

Theorem uninstall_same : forall inst d, uninstall_by ansak_string_nsi true inst d = Some (uninstall_section inst d).
Proof.
  intros inst d. unfold uninstall_by. rewrite the_script_read, pages_read, question_read, removal_read.
  replace (perform (blocks the_script) inst true 100 [AskNo "leaveIt"; Return; Small (Label "leaveIt"); Quit] (begin d))
    with (Some (Done (begin d))) by reflexivity.
  destruct (perform_removal inst true d) as (s & -> & ->). reflexivity.
Qed.

Theorem uninstall_no : forall inst d, uninstall_by ansak_string_nsi false inst d = Some d.
Proof.
  intros inst d. unfold uninstall_by. rewrite the_script_read, pages_read, question_read, removal_read. reflexivity.
Qed.

(** * The installer *)

Definition arrival : list command :=
  SetOutPath [] :: OneFile cmake_file ::
  flat_map (fun g => [SetOutPath g; AllFiles g]) groups ++ [WriteUninstaller [uninstaller_name]].

Lemma arrival_read : find_block true "Headers and Libraries" (blocks the_script) = Some arrival.
Proof. reflexivity. Qed.

Definition code_of (pkg : list group) : list packed := flat_map (fun g => [Other (SetOutPath (fst g)); Extract (snd g)]) pkg.

Lemma compile_groups : forall root d gs rest,
  compile root d (flat_map (fun g => [SetOutPath g; AllFiles g]) gs ++ map (fun c => c) [WriteUninstaller rest]) =
  option_map (fun l => code_of l ++ [Other (WriteUninstaller rest)]) (pack_groups root gs d).
Proof.
  induction gs as [|g gs IH]; intro rest; [reflexivity|].
  cbn [flat_map List.app compile pack_groups]. rewrite IH. destruct (collect d (root ++ g)) as [|f fs] eqn:C; [reflexivity|].
  destruct (pack_groups root gs d) as [l|]; [|reflexivity]. reflexivity.
Qed.

Lemma compile_all : forall root d, compile root d arrival =
  option_map (fun l => code_of l ++ [Other (WriteUninstaller [uninstaller_name])]) (pack root d).
Proof.
  intros root d. unfold arrival, pack. cbn [compile]. fold cmake_file.
  pose proof (compile_groups root d groups [uninstaller_name]) as C. cbn [map] in C. rewrite C. clear C.
  destruct (look d (root ++ cmake_file)) as [[|data]|]; try reflexivity.
  destruct (pack_groups root groups d) as [l|]; reflexivity.
Qed.

Lemma run_code : forall inst exe pkg out d,
  run_install inst exe out (code_of pkg ++ [Other (WriteUninstaller [uninstaller_name])]) d = install_section pkg inst exe d.
Proof.
  induction pkg as [|(g, fs) pkg IH]; intros out d.
  - reflexivity.
  - cbn [code_of flat_map List.app run_install fst snd]. fold (code_of pkg). unfold install_section. cbn [each].
    unfold semicolon at 1, andthen at 1. unfold andthen at 1 2. unfold install_group, semicolon at 1. cbn [fst snd].
    replace (each (fun f : string * list Z => write (inst ++ g ++ [fst f]) (snd f)) fs (snd (mkdir_p (inst ++ g) d)))
      with (each (fun f : string * list Z => write ((inst ++ g) ++ [fst f]) (snd f)) fs (snd (mkdir_p (inst ++ g) d))).
    + destruct (each (fun f : string * list Z => write ((inst ++ g) ++ [fst f]) (snd f)) fs (snd (mkdir_p (inst ++ g) d))) as ([[]|e], d1);
        [|reflexivity]. rewrite IH. reflexivity.
    + generalize (snd (mkdir_p (inst ++ g) d)). clear. induction fs as [|f fs IH]; intro d; [reflexivity|].
      cbn [each]. unfold andthen. rewrite <- app_assoc. destruct (write (inst ++ g ++ [fst f]) (snd f) d) as ([[]|e], d'); [apply IH|reflexivity].
Qed.

Theorem install_same : forall root d0 inst exe,
  match install_by ansak_string_nsi root d0 inst exe, pack root d0 with
  | Some m, Some pkg => forall d, m d = install_section pkg inst exe d
  | None, None => True
  | _, _ => False
  end.
Proof.
  intros root d0 inst exe. unfold install_by. rewrite the_script_read, arrival_read, compile_all.
  destruct (pack root d0) as [pkg|]; cbn [option_map]; [|exact I]. apply run_code.
Qed.

(** * What follows for the text *)

Theorem text_installs : forall root d0 inst exe m d d', install_by ansak_string_nsi root d0 inst exe = Some m ->
  m d = (Returned tt, d') ->
  forall s data, (s = cmake_file \/ exists g x, holds g /\ s = g ++ [x]) ->
    look d0 (root ++ s) = Some (File data) -> look d' (inst ++ s) = Some (File data).
Proof.
  intros root d0 inst exe m d d' M E. pose proof (install_same root d0 inst exe) as S. rewrite M in S.
  destruct (pack root d0) as [pkg|] eqn:P; [|contradiction]. rewrite S in E. exact (installer_done root d0 pkg inst exe d d' P E).
Qed.

Theorem text_removes : forall yes inst d, exists d', uninstall_by ansak_string_nsi yes inst d = Some d' /\
  (yes = false -> d' = d) /\
  (forall p, look d' p = look d p \/ (look d' p = None /\ by_uninstaller inst p)) /\
  (yes = true -> forall s data, (our_file s \/ s = remover) ->
     look d (inst ++ s) = Some (File data) -> writable d (inst ++ s) = true -> look d' (inst ++ s) = None).
Proof.
  intros [] inst d.
  - exists (uninstall_section inst d). split; [apply uninstall_same|]. split; [discriminate|].
    split; [apply uninstaller_keeps|]. intros _. apply uninstaller_done.
  - exists d. split; [apply uninstall_no|]. split; [reflexivity|]. split; [now left|discriminate].
Qed.
