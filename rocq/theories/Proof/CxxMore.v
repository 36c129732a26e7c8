(* The statements of Props/SourceMore.v from the lemmas about calls with given room. *)
From Coq Require Import ZArith List Bool String Lia.
From Verif Require Import Machine.
From Verif.Model Require Import Tables Internal Predicate Decode Str Lower CodePage Trim SplitJoin Wide.
From Verif.Cxx Require Import Syntax Semantics Program Values.
From Verif.Spec Require Import Utf Text Prefix Result Source.
From Verif.Proof Require Import Bits CxxTools CxxSugar CxxMono CxxPred CxxConvert CxxLower CxxRanges CxxLowers CxxCodePage CxxTrim CxxTrims
  CxxJoin CxxSplit CxxWide CxxAnswers CxxResults Calls MemoryWitness PrefixFacts TablesFacts.
Import ListNotations.
Local Open Scope string_scope.
Local Open Scope list_scope.
Local Open Scope Z_scope.

Lemma leaves_at I T f args r k n :
  (forall fuel d, (n <= fuel)%nat ->
     (do a <- call I T fuel (k + d) f args; match snd a with Some v :: _ => Done v | _ => Undefined end) = r) -> leaves I T f args r.
Proof.
  intros H. exists (max k n). intros fuel depth Hf Hd.
  replace depth with (k + (depth - k))%nat by lia. apply H. lia.
Qed.
(* one run is enough *)
Lemma leaves_from I T n d f vs r : call I T n d f vs <> OutOfFuel ->
  (do a <- call I T n d f vs; match snd a with Some v :: _ => Done v | _ => Undefined end) = r -> leaves I T f vs r.
Proof.
  intros Hn <-. exists (max n d). intros fuel depth Hf Hd.
  destruct (less_call I T n fuel d depth f vs) as [E|E]; [lia | lia | contradiction|]. rewrite <- E. reflexivity.
Qed.

Ltac parts := lazymatch goal with |- _ /\ _ => split; [|parts] | |- _ => idtac end.
Ltac by_leaving k n L :=
  apply (leaves_at _ _ _ _ _ k n); intros fuel d Hf; cbn [Nat.add]; rewrite L; try assumption;
  [ rewrite bind_bind; reflexivity | .. ]; try lia.

(* ---------------------------------------------------------------- toLower *)

Lemma tables_units v : units_to_units (tables v).
Proof.
  split; intros c Hc; [destruct (lower_value v c Hc) as [E|E] | destruct (turkic_value v c Hc) as [E|E]];
    try (rewrite E; exact Hc); destruct E; lia.
Qed.

Definition length_of (m : outcome (list Z)) : nat := match m with Done r => List.length r | _ => O end.

Section More.
Context (I : implementation) (T : UnicodeTables).

Lemma a_lower_8 s arr p : units_to_units T -> Forall byte s -> points_into byte arr p ->
  runs_to I T "toLower" [VS Char s; vptr Char arr p] (string_of Char (toLower_8 T s p)).
Proof.
  intros. by_call 6%nat (max (room p) (S (S (max (List.length s) (length_of (toUcs4_8_string s)))))) c_toLower_8.
  - apply points_room; [assumption | lia].
  - intros r E. rewrite E in Hf. cbn [length_of] in Hf. lia.
Qed.
Lemma a_lower_16 s arr p : units_to_units T -> Forall unit16 s -> points_into byte arr p ->
  runs_to I T "toLower" [VS Char16 s; vptr Char arr p] (string_of Char16 (toLower_16 T s p)).
Proof.
  intros. by_call 6%nat (max (room p) (S (S (max (List.length s) (length_of (toUcs4_16_string s)))))) c_toLower_16.
  - apply points_room; [assumption | lia].
  - intros r E. rewrite E in Hf. cbn [length_of] in Hf. lia.
Qed.
Lemma a_lower_32 s arr p : units_to_units T -> Forall unit32 s -> points_into byte arr p ->
  runs_to I T "toLower" [VS Char32 s; vptr Char arr p] (string_of Char32 (toLower_32 T s p)).
Proof. intros. by_call 2%nat (room p) c_toLower_32. Qed.

(* without the language: the default argument, a null pointer *)
Lemma runs_same f args args' r : (forall fuel d, call I T fuel (S d) f args = call I T fuel (S d) f args') ->
  runs_to I T f args' r -> runs_to I T f args r.
Proof.
  intros E (n & H). exists (S n). intros fuel [|d] Hf Hd; [lia|]. rewrite E. apply H; lia.
Qed.
Lemma all_lower : units_to_units T ->
  (forall s arr p, Forall byte s -> points_into byte arr p ->
     runs_to I T "toLower" [VS Char s; vptr Char arr p] (string_of Char (toLower_8 T s p))) /\
  (forall s arr p, Forall unit16 s -> points_into byte arr p ->
     runs_to I T "toLower" [VS Char16 s; vptr Char arr p] (string_of Char16 (toLower_16 T s p))) /\
  (forall s arr p, Forall unit32 s -> points_into byte arr p ->
     runs_to I T "toLower" [VS Char32 s; vptr Char arr p] (string_of Char32 (toLower_32 T s p))) /\
  (forall s, Forall byte s -> runs_to I T "toLower" [VS Char s] (string_of Char (toLower_8 T s Null))) /\
  (forall s, Forall unit16 s -> runs_to I T "toLower" [VS Char16 s] (string_of Char16 (toLower_16 T s Null))) /\
  (forall s, Forall unit32 s -> runs_to I T "toLower" [VS Char32 s] (string_of Char32 (toLower_32 T s Null))).
Proof.
  intros HT. parts; intros.
  - now apply a_lower_8.
  - now apply a_lower_16.
  - now apply a_lower_32.
  - apply (runs_same _ _ [VS Char s; VP Char PNull]); [intros; apply lower8_bare|]. now apply (a_lower_8 s [] Null).
  - apply (runs_same _ _ [VS Char16 s; VP Char PNull]); [intros; apply lower16_bare|]. now apply (a_lower_16 s [] Null).
  - apply (runs_same _ _ [VS Char32 s; VP Char PNull]); [intros; apply lower32_bare|]. now apply (a_lower_32 s [] Null).
Qed.

(* ---------------------------------------------------------------- code pages *)

Lemma a_page arr p t : points_into byte arr p -> int32 t ->
  runs_to I T "toUtf8" [vptr Char arr p; VI Enum t] (string_of Char (toUtf8_cp p t)).
Proof. intros. by_call 2%nat (room p) c_page. Qed.

(* ---------------------------------------------------------------- trimming *)

Lemma all_trim :
  (forall s, Forall byte s -> holds s -> leaves I T "trim" [VS Char s] (string_of Char (trim s))) /\
  (forall s, Forall unit16 s -> holds s -> leaves I T "trim" [VS Char16 s] (string_of Char16 (trim s))) /\
  (forall s, Forall unit32 s -> holds s -> leaves I T "trim" [VS Char32 s] (string_of Char32 (trim s))) /\
  (forall s sp, Forall byte s -> holds s -> holds sp ->
     leaves I T "trim" [VS Char s; VS Char sp] (string_of Char (trim_set s sp))) /\
  (forall s sp, Forall unit16 s -> holds s -> holds sp ->
     leaves I T "trim" [VS Char16 s; VS Char16 sp] (string_of Char16 (trim_set s sp))) /\
  (forall s sp, Forall unit32 s -> holds s -> holds sp ->
     leaves I T "trim" [VS Char32 s; VS Char32 sp] (string_of Char32 (trim_set s sp))).
Proof.
  parts; intros.
  - by_leaving 1%nat (S (List.length s)) c_trim_8.
  - by_leaving 1%nat (S (List.length s)) c_trim_16.
  - by_leaving 1%nat (S (List.length s)) c_trim_32.
  - by_leaving 1%nat (S (List.length s)) c_trim_set_8.
  - by_leaving 1%nat (S (List.length s)) c_trim_set_16.
  - by_leaving 1%nat (S (List.length s)) c_trim_set_32.
Qed.

(* a string up to its first zero *)
Lemma at_zero s : Forall byte s -> text8 s \/ exists us more, s = us ++ 0 :: more /\ text8 us.
Proof.
  induction 1 as [|c s Hc Hs IH]; [left; constructor|]. unfold byte in Hc.
  destruct (Z.eq_dec c 0) as [->|Hn]; [right; exists [], s; split; [reflexivity|constructor]|].
  destruct IH as [IH|(us & more & -> & IH)]; [left; constructor; [lia|exact IH]|].
  right. exists (c :: us), more. split; [reflexivity|]. constructor; [lia|exact IH].
Qed.
Lemma settled_value (f : ptr -> outcome (list Z)) us r : settled f us -> f (c_str us) = Done r -> returns f us r.
Proof. intros (b & H) E. pose proof (H []) as E'. unfold c_str in E. rewrite E in E'. injection E' as <-. exact H. Qed.
Lemma utf16_shorter s r : Forall byte s -> toUtf16_8_string s = Done r -> size r <= size s.
Proof.
  intros Hs E. destruct (at_zero s Hs) as [Ht|(us & more & -> & Ht)].
  - destruct (toUtf16_8_sized s r Ht) as [H _]; [exact (settled_value _ _ _ (settled_toUtf16_8 s Ht) E)|].
    unfold len in H. unfold size. lia.
  - destruct (embedded_to more) as (H1 & _). destruct (H1 us Ht) as (_ & E' & _). rewrite E' in E.
    destruct (toUtf16_8_sized us r Ht) as [H _]; [exact (settled_value _ _ _ (settled_toUtf16_8 us Ht) E)|]. rewrite size_app. unfold len in H. unfold size in *. cbn [List.length]. lia.
Qed.

Lemma all_trims :
  (forall s, Forall byte s -> holds s -> leaves I T "trimAscii7WhiteSpace" [VS Char s] (string_of Char (trimAscii7WhiteSpace s))) /\
  (forall s, Forall unit32 s -> holds s -> leaves I T "trimWhiteSpace" [VS Char32 s] (string_of Char32 (trimWhiteSpace_32 s))) /\
  (forall s, Forall unit16 s -> holds s -> leaves I T "trimWhiteSpace" [VS Char16 s] (string_of Char16 (trimWhiteSpace_16 s))) /\
  (forall s, Forall byte s -> holds s -> leaves I T "trimWhiteSpace" [VS Char s] (string_of Char (trimWhiteSpace_8 s))).
Proof.
  parts; intros.
  - by_leaving 2%nat (S (List.length s)) c_trimAscii.
  - by_leaving 2%nat (S (List.length s)) c_trimWhite_32.
  - by_leaving 2%nat (S (List.length s)) c_trimWhite_16.
  - by_leaving 6%nat (S (S (List.length s))) c_trimWhite_8.
    intros r E. pose proof (utf16_shorter s r H E). unfold holds, size in *. lia.
Qed.

(* ---------------------------------------------------------------- splitting and joining *)

Lemma all_split :
  (forall s x, byte x -> holds s ->
     runs_to I T "split" [VS Char s; VI Char (norm I Char x)] (strings_of Char (split s x))) /\
  (forall s x, unit16 x -> holds s ->
     runs_to I T "split" [VS Char16 s; VI Char16 (norm I Char16 x)] (strings_of Char16 (split s x))) /\
  (forall s x, unit32 x -> holds s ->
     runs_to I T "split" [VS Char32 s; VI Char32 (norm I Char32 x)] (strings_of Char32 (split s x))).
Proof.
  parts; intros.
  - by_call 1%nat (S (List.length s)) c_split_8.
  - by_call 1%nat (S (List.length s)) c_split_16.
  - by_call 1%nat (S (List.length s)) c_split_32.
Qed.
Lemma all_join :
  (forall ss x, byte x ->
     runs_to I T "join" [VVec Char ss; VI Char (norm I Char x)] (string_of Char (join ss x))) /\
  (forall ss x, unit16 x ->
     runs_to I T "join" [VVec Char16 ss; VI Char16 (norm I Char16 x)] (string_of Char16 (join ss x))) /\
  (forall ss x, unit32 x ->
     runs_to I T "join" [VVec Char32 ss; VI Char32 (norm I Char32 x)] (string_of Char32 (join ss x))).
Proof.
  parts; intros.
  - by_call 1%nat O c_join_8.
  - by_call 1%nat O c_join_16.
  - by_call 1%nat O c_join_32.
Qed.
End More.
