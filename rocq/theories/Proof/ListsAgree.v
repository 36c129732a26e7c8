(** C151: the build and the scripts around it agree. *)
From Coq Require Import ZArith List Bool String Ascii Lia.
From Verif Require Import Gen.TextLists Model.Make Model.Lists Model.ListsWanted Spec.Lists Spec.Install Spec.Unix.
From Verif Require Import Proof.InstallRest Proof.ListsAll Proof.ListsCase Proof.ListsWorlds.
Import ListNotations.
Open Scope string_scope.
Open Scope list_scope.

Lemma unicode_model : forall w, unicode w = cmake_version (setting w "ANSAK_UNICODE_SUPPORT").
Proof. reflexivity. Qed.

Theorem version_from_make : forall w n, clean w -> fails w = false -> setting w "ANSAK_UNICODE_SUPPORT" = decimal n ->
  exists t, run_it w = Went t /\
    (forall v, In v versions -> (compiles t (lower_file v) <-> ("source/bits" ++ v)%string = bits_dir (decimal n))) /\
    (forall v, In v versions -> (compiles t (lower_file v) <-> v = decimal (if (7 <=? n)%Z && (n <=? 16)%Z then n else 16))).
Proof.
  intros w n C F S. destruct (went w C F) as (t & R & A & _). exists t. split; [exact R|].
  destruct (chosen_unicode w) as (_ & I).
  assert (L : forall v, In v versions -> (compiles t (lower_file v) <-> v = unicode w)).
  { intros v V. rewrite compiles_listed, A, compiled_all. apply listed_iff. now apply (distinct_listed (unicode w) v (tested w) I V). }
  assert (E : bits_dir (decimal n) = ("source/bits" ++ unicode w)%string) by (rewrite unicode_model, S; reflexivity).
  assert (J : forall a b : string, ("source/bits" ++ a)%string = ("source/bits" ++ b)%string -> a = b) by (intros a b H; now injection H).
  split; intros v V; rewrite (L v V).
  - rewrite E. split; [now intros ->|apply J].
  - assert (D : unicode w = decimal (if (7 <=? n)%Z && (n <=? 16)%Z then n else 16)).
    { apply J. rewrite <- E. apply built_version. }
    now rewrite D.
Qed.

Theorem same_headers : forall w, clean w -> fails w = false -> root w = true ->
  exists t, run_it w = Went t /\
    (forall h, In h headers <-> Lists.installed t ("interface/" ++ h)%string) /\
    (forall f, Lists.installed t f -> exists h, f = ("interface/" ++ h)%string /\ belongs ["interface"; h] (header_file h)).
Proof.
  intros w C F O. destruct (headers_complete w C F O) as (t & R & H & _). exists t. split; [exact R|]. split.
  - intro h. rewrite H. unfold public_headers, headers. cbn [In]. split.
    + intros [<-|[<-|[<-|[]]]]; cbn; tauto.
    + intros [X|[X|[X|[]]]]; injection X as <-; tauto.
  - intros f I. apply H in I. unfold public_headers in I. cbn [In] in I.
    destruct I as [<-|[<-|[<-|[]]]]; [exists "string.hxx"|exists "string_splitjoin.hxx"|exists "string_trim.hxx"]; (split; [reflexivity|]);
      apply belongs_header; cbn; tauto.
Qed.
