(** The gathering of [package] as a list of steps. *)
From Coq Require Import ZArith List Bool String Ascii Lia.
From Verif Require Import Model.Make Spec.Install.
From Verif Require Import Proof.InstallFacts Proof.InstallRun.
Import ListNotations.
Open Scope string_scope.
Open Scope list_scope.

(** * Gathering *)

(** A copy from the first of two places if there is a file, else the second. *)
Definition pick (here : path) (d : disk) (c : path * option path * path) : path * path :=
  (match snd (fst c) with
   | None => fst (fst c)
   | Some other => if is_file d (here ++ fst (fst c)) then fst (fst c) else other
   end, snd c).

Definition copy_pick (top here : path) (c : path * option path * path) : io unit :=
  fun d => copy_one top here (pick here d c) d.

Definition from (t s : path) : path * option path * path := (t, None, s).

Definition spare (a : string) : path := ["build"; a; "ansakString.dir"; "RelWithDebInfo"; database].

Definition gather_picks : list (path * option path * path) :=
  [from ["interface"; "string.hxx"] ["include"; "ansak"];
   from ["interface"; "string_splitjoin.hxx"] ["include"; "ansak"];
   from ["interface"; "string_trim.hxx"] ["include"; "ansak"];
   from (built "Win32" "Release" library) ["lib"; "Win32"; "Release"];
   from (built "Win32" "Debug" library) ["lib"; "Win32"; "Debug"];
   from (built "Win32" "Debug" database) ["lib"; "Win32"; "Debug"];
   from (built "Win32" "RelWithDebInfo" library) ["lib"; "Win32"; "RelWithDebInfo"];
   (built "Win32" "RelWithDebInfo" database, Some (spare "Win32"), ["lib"; "Win32"; "RelWithDebInfo"]);
   from (built "Win32" "MinSizeRel" library) ["lib"; "Win32"; "MinSizeRel"];
   from (built "x64" "Release" library) ["lib"; "x64"; "Release"];
   from (built "x64" "Debug" library) ["lib"; "x64"; "Debug"];
   from (built "x64" "Debug" database) ["lib"; "x64"; "Debug"];
   from (built "x64" "RelWithDebInfo" library) ["lib"; "x64"; "RelWithDebInfo"];
   (built "x64" "RelWithDebInfo" database, Some (spare "x64"), ["lib"; "x64"; "RelWithDebInfo"]);
   from (built "x64" "MinSizeRel" library) ["lib"; "x64"; "MinSizeRel"]].

Definition nsis_root (here : path) : path := here ++ ["build"; "nsis"].

Lemma nsis_dests_dirs : forall here,
  map snd (nsis_dests here true) = map (fun s => nsis_root here ++ s) ([] :: dirs_in_order).
Proof. intro here. unfold nsis_root. cbn. now rewrite <- !app_assoc. Qed.

Ltac one_by_one_too :=
  repeat match goal with
  | |- context [if is_file ?d ?p then _ else _] => destruct (is_file d p)
  | |- context [match copy2 ?a ?b ?d with (_, _) => _ end] =>
      destruct (copy2 a b d) as [[[]|?] ?]
  end.

Lemma gather_steps : forall here d,
  gather here d =
  match create_dirs (map (fun s => nsis_root here ++ s) ([] :: dirs_in_order)) d with
  | (Returned z, d1) =>
      if Z.eqb z 0 then each (copy_pick (nsis_root here) here) gather_picks d1
      else (Raised (Exit z), d1)
  | (Raised e, d1) => (Raised e, d1)
  end.
Proof.
  intros here d. unfold gather. cbv zeta. rewrite nsis_dests_dirs.
  unfold andthen at 1. destruct (create_dirs _ d) as [[z|e] d1]; [|reflexivity].
  destruct (Z.eqb z 0) eqn:E; [|reflexivity].
  unfold andthen at 1, ret at 1.
  unfold gather_picks. cbn [each headers_to_install libs_to_install].
  unfold copy_pick, andthen, copy_either, copy_to, copy_one, key_of, ret, pick, from, spare, nsis_root.
  cbn -[copy2 app is_file].
  rewrite <- !app_assoc. cbn [app]. unfold built, library, database.
  one_by_one_too; reflexivity.
Qed.
