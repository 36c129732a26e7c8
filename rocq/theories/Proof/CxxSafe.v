(* Every call of Spec/Safe.v returns. *)
From Coq Require Import ZArith List Bool String Lia.
From Verif Require Import Machine.
From Verif.Model Require Import Tables Internal Predicate Decode Str Sugar Lower CodePage SplitJoin Trim Wide Tchar.
From Verif.Cxx Require Import Syntax Semantics Configurations Program Values Linked.
From Verif.Spec Require Import Utf Target Result Bounded Text Chain Ucd Case Version Source Linked WideSource Safe.
From Verif.Proof Require Import Bits Calls Bounded16 MemoryWitness CaseFacts SplitFacts TrimFacts CaseWitness CodePageFacts Consequences LengthFuncs TablesFacts CxxTools CxxMono CxxAnswers CxxResults
  CxxEndToEnd CxxMore CxxRest CxxWides CxxWides16 CxxWhole.
Import ListNotations.
Local Open Scope string_scope.
Local Open Scope list_scope.
Local Open Scope Z_scope.

Definition total {A} (m : outcome A) : Prop := exists a, m = Done a.
Lemma total_bind {A B} (m : outcome A) (k : A -> outcome B) : total m -> (forall a, m = Done a -> total (k a)) -> total (bind m k).
Proof. intros (a & ->) H. cbn. now apply H. Qed.
Lemma total_done {A} (a : A) : total (Done a). Proof. now exists a. Qed.

(* ---------------------------------------------------------------- texts *)

(* a pointer to units before a zero *)
Definition ends (P : Z -> Prop) (p : ptr) : Prop := exists us junk, Forall (fun c => P c /\ c <> 0) us /\ p = At (us ++ 0 :: junk).
Definition nulls (P : Z -> Prop) (p : ptr) : Prop := p = Null \/ ends P p.

Lemma first_zero (P : Z -> Prop) us after : Forall P us -> exists us' junk, Forall (fun c => P c /\ c <> 0) us' /\ us ++ 0 :: after = us' ++ 0 :: junk.
Proof.
  induction 1 as [|u us Hu _ (us' & junk & H & E)].
  - exists [], after. split; [constructor | reflexivity].
  - destruct (Z.eq_dec u 0) as [->|Hn].
    + exists [], (us ++ 0 :: after). split; [constructor | reflexivity].
    + exists (u :: us'), junk. split; [constructor; auto|]. cbn. now rewrite E.
Qed.

Lemma string_ends P s : Forall P s -> ends P (c_str s).
Proof. intros H. destruct (first_zero P s [] H) as (us & junk & A & B). exists us, junk. split; [exact A|]. unfold c_str. now rewrite B. Qed.

Lemma backs_step I t arr p : backs I (vptr t arr p) -> may_step_back I arr p.
Proof. unfold may_step_back, vptr, into. destruct p as [|rest]; intros [H|H]; [left; exact H | right; exact H | left; exact H | right; cbn in H; lia]. Qed.
Lemma backs_string I t s : backs I (VS t s) -> pointer_checks I = false.
Proof. intros [H|[]]. exact H. Qed.
Lemma pointer_is t before rest : VP t (PAt (before ++ rest) (size before)) = vptr t (before ++ rest) (At rest).
Proof. unfold vptr, into, size. rewrite app_length. do 2 f_equal. lia. Qed.

Lemma text_cases P t (Q : value -> Prop) :
  (forall s, Forall P s -> ends P (c_str s) -> Q (VS t s)) ->
  (forall arr p, points_into P arr p -> ends P p -> Q (vptr t arr p)) ->
  forall a, text_of P t a -> Q a.
Proof.
  intros S A a [s H|before us after H].
  - apply S; [exact H | now apply string_ends].
  - rewrite (pointer_is t before (us ++ 0 :: after)). apply A.
    + split; [now exists before | exact H].
    + apply Forall_app in H as [_ H]. apply Forall_app in H as [H _].
      destruct (first_zero P us after H) as (us' & junk & C & D). exists us', junk. split; [exact C|]. now rewrite D.
Qed.
Lemma null_cases P t (Q : value -> Prop) :
  (forall s, Forall P s -> nulls P (c_str s) -> Q (VS t s)) ->
  (forall arr p, points_into P arr p -> nulls P p -> Q (vptr t arr p)) ->
  forall a, text_or_null P t a -> Q a.
Proof.
  intros S A a [x H|].
  - revert x H. apply text_cases; intros; [apply S | apply A]; try assumption; now right.
  - apply (A [] Null); [exact Logic.I | now left].
Qed.
Lemma room_cases P t n (Q : value -> Prop) :
  (forall arr us, points_into P arr (At us) -> Forall P us -> n < size us -> Q (vptr t arr (At us))) -> forall a, has_room P t n a -> Q a.
Proof.
  intros A a [before us H L]. rewrite pointer_is. apply A; [|now apply Forall_app in H | exact L]. split; [now exists before | exact H].
Qed.

(* ---------------------------------------------------------------- the model returns *)

Lemma text8_of us : Forall (fun c => byte c /\ c <> 0) us -> text8 us.
Proof. apply Forall_impl. intros c H. unfold byte in H. lia. Qed.
Lemma text16_of us : Forall (fun c => unit16 c /\ c <> 0) us -> text16 us.
Proof. apply Forall_impl. intros c H. unfold unit16 in H. lia. Qed.
Lemma text32_of us : Forall (fun c => unit32 c /\ c <> 0) us -> text32 us.
Proof. apply Forall_impl. intros c H. unfold unit32 in H. lia. Qed.

Ltac settle f := let us := fresh "us" in let junk := fresh "junk" in let H := fresh "H" in let v := fresh "v" in let R := fresh "R" in
  intros (us & junk & H & ->); first [apply text8_of in H | apply text16_of in H | apply text32_of in H];
  edestruct f as [v R]; [exact H | exists v; exact (R junk)].

Section Total.
Context (T : UnicodeTables).
Lemma t_isUtf8 p t pred : nulls byte p -> total (isUtf8 T p t pred).
Proof. intros [->|H]; [unfold isUtf8, isUtf8_impl; destruct (badRange t); now eexists|]. revert H. settle (proj1 (settled_is T t pred)). Qed.
Lemma t_isUtf16 p t pred : nulls unit16 p -> total (isUtf16 T p t pred).
Proof. intros [->|H]; [unfold isUtf16; destruct (badRange t); now eexists|]. revert H. settle (proj1 (proj2 (settled_is T t pred))). Qed.
Lemma t_isUcs2 p t pred : nulls unit16 p -> total (isUcs2 T p t pred).
Proof. intros [->|H]; [unfold isUcs2; destruct (badRange t); now eexists|]. revert H. settle (proj1 (proj2 (proj2 (settled_is T t pred)))). Qed.
Lemma t_isUcs4 p t pred : nulls unit32 p -> total (isUcs4 T p t pred).
Proof. intros [->|H]; [unfold isUcs4; destruct (badRange t); now eexists|]. revert H. settle (proj2 (proj2 (proj2 (settled_is T t pred)))). Qed.
End Total.

Lemma t_toUcs4_8 p : nulls byte p -> total (toUcs4_8 p).
Proof. intros [->|(us & junk & H & ->)]; [now eexists|]. apply text8_of in H. destruct (proj1 settled_to us H) as ((v & R) & _). exists v. exact (R junk). Qed.
Lemma t_toUtf16_8 p : nulls byte p -> total (toUtf16_8 p).
Proof. intros [->|(us & junk & H & ->)]; [now eexists|]. apply text8_of in H. destruct (proj1 settled_to us H) as (_ & (v & R) & _). exists v. exact (R junk). Qed.
Lemma t_toUcs2_8 p : nulls byte p -> total (toUcs2_8 p).
Proof. intros [->|(us & junk & H & ->)]; [now eexists|]. apply text8_of in H. destruct (proj1 settled_to us H) as (_ & _ & (v & R)). exists v. exact (R junk). Qed.
Lemma t_toUcs4_16 p : nulls unit16 p -> total (toUcs4_16 p).
Proof. intros [->|(us & junk & H & ->)]; [now eexists|]. apply text16_of in H. destruct (proj1 (proj2 settled_to) us H) as ((v & R) & _). exists v. exact (R junk). Qed.
Lemma t_toUtf8_16 p : nulls unit16 p -> total (toUtf8_16 p).
Proof. intros [->|(us & junk & H & ->)]; [now eexists|]. apply text16_of in H. destruct (proj1 (proj2 settled_to) us H) as (_ & (v & R)). exists v. exact (R junk). Qed.
Lemma t_toUtf8_32 p : nulls unit32 p -> total (toUtf8_32 p).
Proof. intros [->|(us & junk & H & ->)]; [now eexists|]. apply text32_of in H. destruct (proj2 (proj2 settled_to) us H) as ((v & R) & _). exists v. exact (R junk). Qed.
Lemma t_toUtf16_32 p : nulls unit32 p -> total (toUtf16_32 p).
Proof. intros [->|(us & junk & H & ->)]; [now eexists|]. apply text32_of in H. destruct (proj2 (proj2 settled_to) us H) as (_ & (v & R) & _). exists v. exact (R junk). Qed.
Lemma t_toUcs2_32 p : nulls unit32 p -> total (toUcs2_32 p).
Proof. intros [->|(us & junk & H & ->)]; [now eexists|]. apply text32_of in H. destruct (proj2 (proj2 settled_to) us H) as (_ & _ & (v & R)). exists v. exact (R junk). Qed.
Lemma t_length8 p : nulls byte p -> total (unicodeLength8 p 0).
Proof. intros [->|(us & junk & H & ->)]; [now eexists|]. apply text8_of in H. destruct (proj1 settled_lengths us H) as (v & R). exists v. exact (R junk). Qed.
Lemma t_length16 p : ends unit16 p -> total (unicodeLength16 p 0).
Proof. intros (us & junk & H & ->). apply text16_of in H. destruct (proj1 (proj2 settled_lengths) us H) as (v & R). exists v. exact (R junk). Qed.
Lemma t_length32 p : ends unit32 p -> total (unicodeLength32 p 0).
Proof. intros (us & junk & H & ->). apply text32_of in H. destruct (proj2 (proj2 settled_lengths) us H) as (v & R). exists v. exact (R junk). Qed.

(* the string overloads *)
Lemma t_basic P p : ends P p -> total (basic_string p).
Proof.
  intros (us & junk & H & ->). cbn [basic_string]. induction H as [|u us [_ Hu] _ (r & IH)]; cbn; [now eexists|].
  apply Z.eqb_neq in Hu. rewrite Hu. rewrite IH. now eexists.
Qed.
Lemma t_basic_string s : total (basic_string (c_str s)).
Proof. apply (t_basic (fun _ => True)). apply string_ends. apply Forall_forall. trivial. Qed.

(* a number of elements *)
Lemma cut us n : 0 < n < size us -> exists pre after a, us = pre ++ a :: after /\ len pre = n /\ pre <> [].
Proof.
  intros H. exists (firstn (Z.to_nat n) us), (skipn (S (Z.to_nat n)) us), (nth (Z.to_nat n) us 0).
  assert (L : (Z.to_nat n < List.length us)%nat) by (unfold size in H; lia).
  assert (F : List.length (firstn (Z.to_nat n) us) = Z.to_nat n) by (apply firstn_length_le; lia).
  split; [|split].
  - rewrite <- (firstn_skipn (Z.to_nat n) us) at 1. f_equal. clear -L. revert us L. induction (Z.to_nat n) as [|k IH]; intros [|u us] L; cbn in *; try lia; [reflexivity|].
    apply IH. lia.
  - unfold len. rewrite F. lia.
  - intros E. rewrite E in F. cbn in F. lia.
Qed.
Lemma t_isUtf8_length T us n pred : Forall byte us -> 0 < n < size us -> n < 0x100000000 -> total (isUtf8_length T (At us) n pred).
Proof.
  intros H L M. destruct (cut us n L) as (pre & after & a & -> & <- & N).
  destruct (bounded_over T pred pre (a :: after) H N M) as (A & [B|B]); [|exact B]. apply A in B as [B _]. discriminate.
Qed.
Lemma t_length8_n us n : Forall byte us -> 0 < n < size us -> n < 0x100000000 -> total (unicodeLength8 (At us) n).
Proof.
  intros H L M. destruct (cut us n L) as (pre & after & a & -> & <- & N).
  destruct (length8_over pre (a :: after) H N M) as (A & [B|B]); [|exact B]. apply A in B as [B _]. discriminate.
Qed.
Lemma t_length16_n us n : Forall unit16 us -> 0 < n < size us -> n < 0x100000000 -> total (unicodeLength16 (At us) n).
Proof.
  intros H L M. destruct (cut us n L) as (pre & after & a & -> & <- & N). apply Forall_app in H as [H _].
  destruct (length16_over pre (a :: after) H N M) as (A & [B|B]); [|exact B]. apply A in B as [B _]. discriminate.
Qed.
Lemma t_length32_n us n : Forall unit32 us -> 0 < n < size us -> n < 0x100000000 -> total (unicodeLength32 (At us) n).
Proof.
  intros H L M. destruct (cut us n L) as (pre & after & a & -> & <- & N). apply Forall_app in H as [H _].
  exact (length32_inside pre (a :: after) H N M).
Qed.

(* code pages, lower case *)
Lemma t_index l n : (n < List.length l)%nat -> total (index l n).
Proof. intros H. unfold index. destruct (nth_error l n) eqn:E; [apply total_done|]. apply nth_error_None in E. lia. Qed.
Lemma t_1252 us junk r : Forall byte us -> total (cp1252_loop (us ++ 0 :: junk) r).
Proof.
  intros H. revert r. induction H as [|u us Hu _ IH]; intros r; cbn -[cp125280_9F tableRead encodeUtf8]; [apply total_done|].
  destruct (u =? 0); [apply total_done|]. destruct (Z.leb_spec u 0x7f); [apply IH|]. destruct (Z.leb_spec u 0x9f); [|apply IH].
  apply total_bind; [apply t_index; cbn; lia|]. intros a _. destruct (a =? 0); [apply total_done | apply IH].
Qed.
Lemma t_1250 us junk r : Forall byte us -> total (cp1250_loop (us ++ 0 :: junk) r).
Proof.
  intros H. revert r. induction H as [|u us Hu _ IH]; intros r; cbn -[cp125080_FF tableRead encodeUtf8]; [apply total_done|].
  destruct (u =? 0); [apply total_done|]. destruct (Z.leb_spec u 0x7f); [apply IH|]. unfold byte in Hu.
  apply total_bind; [apply t_index; cbn; lia|]. intros a _. destruct (a =? 0); [apply total_done | apply IH].
Qed.
Lemma t_page p t : nulls byte p -> total (toUtf8_cp p t).
Proof.
  intros [->|H]; [now eexists|]. pose proof (t_basic _ _ H) as B. destruct H as (us & junk & H & ->).
  assert (Hb : Forall byte us) by (revert H; apply Forall_impl; tauto).
  unfold toUtf8_cp. apply total_bind; [destruct us; apply total_done|]. intros a _.
  destruct (a =? 0); [apply total_done|]. destruct (t =? kSrcUnicode); [exact B|].
  destruct (t =? kSrcCP1252); [now apply t_1252|]. destruct (t =? kSrcCP1250); [now apply t_1250 | apply total_done].
Qed.
Lemma ends_language p : nulls byte p -> language p.
Proof.
  intros [->|(us & junk & H & ->)]; [now left | right]. exists us, junk. split; [reflexivity|].
  intros K. rewrite Forall_forall in H. now apply H in K as [_ K].
Qed.
Lemma t_lower_32 T s p : nulls byte p -> total (toLower_32 T s p).
Proof. intros H. destruct (pointwise T p (ends_language p H)) as (f & F). exists (map f s). apply F. Qed.
Lemma string_cut (P : Z -> Prop) s : Forall P s ->
  Forall (fun c => P c /\ c <> 0) s \/ exists us more, s = us ++ 0 :: more /\ Forall (fun c => P c /\ c <> 0) us.
Proof.
  induction 1 as [|u s Hu _ IH]; [left; constructor|]. destruct (Z.eq_dec u 0) as [->|Hn].
  - right. exists [], s. split; [reflexivity | constructor].
  - destruct IH as [IH|(us & more & -> & IH)]; [left; constructor; auto | right]. exists (u :: us), more. split; [reflexivity | constructor; auto].
Qed.
Lemma t_lower_8 v s p : Forall byte s -> nulls byte p -> total (toLower_8 (tables v) s p).
Proof.
  intros H K. pose proof (ends_language p K) as L. destruct (string_cut byte s H) as [A|(us & more & -> & A)]; apply text8_of in A.
  - destruct (lower_8_twice v p s L A) as (r & E & _). now exists r.
  - rewrite (proj1 (embedded_lower (tables v) p more) us A). destruct (lower_8_twice v p us L A) as (r & E & _). now exists r.
Qed.
Lemma t_lower_16 v s p : Forall unit16 s -> nulls byte p -> total (toLower_16 (tables v) s p).
Proof.
  intros H K. pose proof (ends_language p K) as L. destruct (string_cut unit16 s H) as [A|(us & more & -> & A)]; apply text16_of in A.
  - destruct (lower_16_twice v p s L A) as (r & E & _). now exists r.
  - rewrite (proj2 (embedded_lower (tables v) p more) us A). destruct (lower_16_twice v p us L A) as (r & E & _). now exists r.
Qed.

Lemma t_split s d : occurrences d s < 0x80000000 -> total (split s d).
Proof.
  intros H. destruct s as [|x s]; [exists []; apply split_empty|].
  destruct (split_cuts (x :: s) d) as (v & E & _); [discriminate | exact H | now exists v].
Qed.
Lemma t_join ss d : total (join ss d).
Proof.
  destruct (Z.eq_dec d 0) as [->|H]; [eexists; apply join_zero|]. destruct (join_glues ss d H) as (r & E & _). now exists r.
Qed.
Lemma t_trim s : total (trim s). Proof. destruct (trim_trims s) as (r & E & _). now exists r. Qed.
Lemma t_trim_set s l : total (trim_set s l). Proof. destruct (trim_set_trims s l) as (r & E & _). now exists r. Qed.
Lemma t_trim_8 s : Forall byte s -> total (trimWhiteSpace_8 s). Proof. intros H. destruct (trim_8_twice s H) as (r & E & _). now exists r. Qed.

(* ---------------------------------------------------------------- the calls return *)

Lemma r_string I T f args t (m : outcome (list Z)) : runs_to I T f args (string_of t m) -> total m -> call_returns I T f args.
Proof. intros R (a & E). exact (returns_of _ _ _ _ _ _ _ R E). Qed.
Lemma r_bool I T f args m : runs_to I T f args (boolean m) -> total m -> call_returns I T f args.
Proof. intros R (a & E). exact (returns_bool _ _ _ _ _ _ R E). Qed.
Lemma r_int I T f args t m : runs_to I T f args (integer t m) -> total m -> call_returns I T f args.
Proof. intros R (a & E). exact (returns_int _ _ _ _ _ _ _ R E). Qed.
Lemma r_vector I T f args t m : runs_to I T f args (strings_of t m) -> total m -> call_returns I T f args.
Proof. intros R (a & E). exists (VVec t a). rewrite E in R. exact R. Qed.
Lemma r_done I T f args a : runs_to I T f args (Done a) -> call_returns I T f args.
Proof. now exists a. Qed.
Lemma l_returns I v f args : Forall (in_range I) args -> call_returns I (tables v) f args -> exists r, linked_runs_to I v f args (Done r).
Proof. intros H (r & R). exists r. now apply l_runs. Qed.

Ltac facts H := repeat match type of H with _ /\ _ => let A := fresh "A" in destruct H as [A H] end.
Ltac side := first [eassumption | reflexivity | now apply backs_step with (t := Char) | now apply backs_step with (t := Char16) | eapply backs_string; eassumption | left; assumption |
  match goal with H : is_int _ |- _ => exact H end | now right].
Ltac tot := first [apply t_isUtf8 | apply t_isUtf16 | apply t_isUcs2 | apply t_isUcs4 | apply t_toUcs4_8 | apply t_toUtf16_8 | apply t_toUcs2_8 |
  apply t_toUcs4_16 | apply t_toUtf8_16 | apply t_toUtf8_32 | apply t_toUtf16_32 | apply t_toUcs2_32 | apply t_length8 | apply t_length16 | apply t_length32]; side.
Ltac ret := match goal with H : _ |- call_returns _ _ _ _ =>
  first [eapply r_bool; [eapply H; side | tot] | eapply r_string; [eapply H; side | tot] | eapply r_int; [eapply H; side | tot]] end.

Lemma pred_cases (Q : value -> Prop) : (forall p, pred_ok p -> Q (vpred p)) -> forall a, predicate a -> Q a.
Proof. intros H a [m x Hm Hx]. apply (H {| m_mask := m; m_value := x |}). now split. Qed.

Ltac on L H := match type of H with _ ?a => let G := match goal with |- ?G => G end in
  let Q := eval pattern a in G in match Q with ?F _ => refine (L _ _ F _ _ a H); clear a H; cbv beta end end.
Ltac on_room := match goal with H : has_room _ _ _ ?a |- ?G => let Q := eval pattern a in G in match Q with ?F _ => refine (room_cases _ _ _ F _ a H); clear a H; cbv beta end end.
Ltac on_text := match goal with H : text_of _ _ _ |- _ => on text_cases H | H : text_or_null _ _ _ |- _ => on null_cases H end.
Lemma options_cases (Q : list value -> Prop) : Q [] -> (forall t, int32 t -> Q [VI Enum t]) -> (forall p, pred_ok p -> Q [vpred p]) ->
  (forall t p, int32 t -> pred_ok p -> Q [VI Enum t; vpred p]) -> forall l, options l -> Q l.
Proof.
  intros A B C D l [|t Ht|q Hq|t q Ht Hq]; [exact A | now apply B | |].
  - revert q Hq. apply (pred_cases (fun q => Q [q])). exact C.
  - revert q Hq. apply (pred_cases (fun q => Q [VI Enum t; q])). intros q Hq. now apply D.
Qed.
Lemma maybe_cases (Q : list value -> Prop) : Q [] -> (forall p, pred_ok p -> Q [vpred p]) -> forall l, maybe_predicate l -> Q l.
Proof. intros A B l [|q Hq]; [exact A|]. revert q Hq. apply (pred_cases (fun q => Q [q])). exact B. Qed.
Ltac on_options := match goal with H : options ?l |- _ => refine (options_cases (fun l => call_returns _ _ _ (_ :: l)) _ _ _ _ l H); cbv beta; clear l H; intros end.

Section Safe.
Context (I : implementation) (v : version).
Let T := tables v.

Lemma s_isUtf8 a l : options l -> text_or_null byte Char a -> backs I a -> call_returns I T "isUtf8" (a :: l).
Proof. intros O H. pose proof (all_isUtf8 I T) as F. facts F. on_text; intros; on_options; ret. Qed.
Lemma s_isUtf16 a l : options l -> text_or_null unit16 Char16 a -> call_returns I T "isUtf16" (a :: l).
Proof. intros O H. pose proof (all_isUtf16 I T) as F. facts F. on_text; intros; on_options; ret. Qed.
Lemma s_isUcs2 a l : options l -> text_or_null unit16 Char16 a -> call_returns I T "isUcs2" (a :: l).
Proof. intros O H. pose proof (all_isUcs2 I T) as F. facts F. on_text; intros; on_options; ret. Qed.
Lemma s_isUcs4 a l : options l -> text_or_null unit32 Char32 a -> call_returns I T "isUcs4" (a :: l).
Proof. intros O H. pose proof (all_isUcs4 I T) as F. facts F. on_text; intros; on_options; ret. Qed.
Lemma s_isUtf8_length a n l : maybe_predicate l -> has_room byte Char n a -> 0 < n < 0x100000000 -> backs I a -> call_returns I T "isUtf8" (a :: VI UInt n :: l).
Proof.
  intros O H Hn. pose proof (all_isUtf8 I T) as F. facts F. on_room. intros arr us Hp Hu Hr Hb. apply backs_step in Hb.
  assert (Un : uint32 n) by (unfold uint32; lia).
  refine (maybe_cases (fun l => call_returns _ _ _ (_ :: _ :: l)) _ _ l O); cbv beta; [|intros q Hq]; eapply r_bool; [eapply F; eassumption | | eapply A7; eassumption |]; apply t_isUtf8_length; try assumption; lia.
Qed.
Lemma s_toUtf8_16 a : text_or_null unit16 Char16 a -> call_returns I T "toUtf8" [a].
Proof. intros H. pose proof (all_toUtf8 I T) as F. facts F. on_text; intros; ret. Qed.
Lemma s_toUtf8_32 a : text_or_null unit32 Char32 a -> call_returns I T "toUtf8" [a].
Proof. intros H. pose proof (all_toUtf8 I T) as F. facts F. on_text; intros; ret. Qed.
Lemma s_toUcs2_8 a : text_or_null byte Char a -> call_returns I T "toUcs2" [a].
Proof. intros H. pose proof (all_toUcs2 I T) as F. facts F. on_text; intros; ret. Qed.
Lemma s_toUcs2_32 a : text_or_null unit32 Char32 a -> call_returns I T "toUcs2" [a].
Proof. intros H. pose proof (all_toUcs2 I T) as F. facts F. on_text; intros; ret. Qed.
Lemma s_toUtf16_8 a : text_or_null byte Char a -> call_returns I T "toUtf16" [a].
Proof. intros H. pose proof (all_toUtf16 I T) as F. facts F. on_text; intros; ret. Qed.
Lemma s_toUtf16_32 a : text_or_null unit32 Char32 a -> call_returns I T "toUtf16" [a].
Proof. intros H. pose proof (all_toUtf16 I T) as F. facts F. on_text; intros; ret. Qed.
Lemma s_toUcs4_8 a : text_or_null byte Char a -> call_returns I T "toUcs4" [a].
Proof. intros H. pose proof (all_toUcs4 I T) as F. facts F. on_text; intros; ret. Qed.
Lemma s_toUcs4_16 a : text_or_null unit16 Char16 a -> call_returns I T "toUcs4" [a].
Proof. intros H. pose proof (all_toUcs4 I T) as F. facts F. on_text; intros; ret. Qed.
Lemma s_length8 a : text_or_null byte Char a -> backs I a -> call_returns I T "unicodeLength" [a].
Proof. intros H. pose proof (all_unicodeLength I T) as F. facts F. on_text; intros; ret. Qed.
Lemma s_length16 a : text_of unit16 Char16 a -> backs I a -> call_returns I T "unicodeLength" [a].
Proof. intros H. pose proof (all_unicodeLength I T) as F. facts F. on_text; intros; ret. Qed.
Lemma s_length32 a : text_of unit32 Char32 a -> call_returns I T "unicodeLength" [a].
Proof. intros H. pose proof (all_unicodeLength I T) as F. facts F. on_text; intros; ret. Qed.
Lemma s_length8_n a n : has_room byte Char n a -> 0 < n < 0x100000000 -> backs I a -> call_returns I T "unicodeLength" [a; VI UInt n].
Proof.
  intros H Hn. pose proof (all_unicodeLength I T) as F. facts F. assert (Un : uint32 n) by (unfold uint32; lia).
  on_room. intros arr us Hp Hu Hr Hb. apply backs_step in Hb.
  eapply r_int; [eapply A; eassumption | apply t_length8_n; try assumption; lia].
Qed.
Lemma s_length16_n a n : has_room unit16 Char16 n a -> 0 < n < 0x100000000 -> backs I a -> call_returns I T "unicodeLength" [a; VI UInt n].
Proof.
  intros H Hn. pose proof (all_unicodeLength I T) as F. facts F. assert (Un : uint32 n) by (unfold uint32; lia).
  on_room. intros arr us Hp Hu Hr Hb. apply backs_step in Hb.
  eapply r_int; [eapply A2; eassumption | apply t_length16_n; try assumption; lia].
Qed.
Lemma s_length32_n a n : has_room unit32 Char32 n a -> 0 < n < 0x100000000 -> call_returns I T "unicodeLength" [a; VI UInt n].
Proof.
  intros H Hn. pose proof (all_unicodeLength I T) as F. facts F. assert (Un : uint32 n) by (unfold uint32; lia).
  on_room. intros arr us Hp Hu Hr.
  eapply r_int; [eapply A5; [eassumption | right; lia | eassumption] | apply t_length32_n; try assumption; lia].
Qed.
Lemma s_page a t : text_or_null byte Char a -> (forall s, a <> VS Char s) -> int32 t -> call_returns I T "toUtf8" [a; VI Enum t].
Proof.
  intros H. on_text; intros.
  - match goal with H : forall _, _ <> _ |- _ => now destruct (H s) end.
  - eapply r_string; [eapply a_page; eassumption | now apply t_page].
Qed.
Lemma s_lower t P s : string_type t P -> Forall P s -> call_returns I T "toLower" [VS t s].
Proof.
  pose proof (all_lower I T (tables_units v)) as F. facts F. intros [] H; eapply r_string; eauto;
    [apply t_lower_8 | apply t_lower_16 | apply t_lower_32]; try assumption; now left.
Qed.
Lemma s_lower_in t P s a : string_type t P -> Forall P s -> text_or_null byte Char a -> (forall s, a <> VS Char s) -> call_returns I T "toLower" [VS t s; a].
Proof.
  intros Ht Hs H. pose proof (all_lower I T (tables_units v)) as F. facts F. on_text; intros.
  - match goal with H : forall _, _ <> _ |- _ => now destruct (H s0) end.
  - destruct Ht; eapply r_string; eauto; [apply t_lower_8 | apply t_lower_16 | apply t_lower_32]; assumption.
Qed.
Lemma s_split t P s d : string_type t P -> P d -> holds s -> occurrences d s < 0x80000000 -> call_returns I T "split" [VS t s; VI t (norm I t d)].
Proof. pose proof (all_split I T) as F. facts F. intros [] Hd Hs Ho; (eapply r_vector; [|apply t_split; exact Ho]); auto. Qed.
Lemma s_join t P ss d : string_type t P -> P d -> call_returns I T "join" [VVec t ss; VI t (norm I t d)].
Proof. pose proof (all_join I T) as F. facts F. intros [] Hd; (eapply r_string; [|apply t_join]); auto. Qed.

(* predicates and characters *)
Lemma s_valid t : int32 t -> call_returns I T "validIf" [VI Enum t] /\ call_returns I T "validIfNot" [VI Enum t].
Proof. intros H. pose proof (all_predicates I T) as F. facts F. split; eapply r_done; eauto. Qed.
Lemma s_check t : int32 t -> call_returns I T "EncodingCheckPredicate::checkIf" [VI Enum t] /\ call_returns I T "EncodingCheckPredicate::checkIfNot" [VI Enum t].
Proof. intros H. pose proof (all_predicates I T) as F. facts F. split; eapply r_done; eauto. Qed.
Lemma s_and p t : predicate p -> int32 t ->
  call_returns I T "EncodingCheckPredicate::andIf" [p; VI Enum t] /\ call_returns I T "EncodingCheckPredicate::andIfNot" [p; VI Enum t].
Proof.
  intros Hp Ht. pose proof (all_predicates I T) as F. facts F. destruct Hp as [m x Hm Hx].
  assert (K : pred_ok {| m_mask := m; m_value := x |}) by now split. split; eapply r_done; [apply (A3 _ t K Ht) | apply (A4 _ t K Ht)].
Qed.
Lemma s_equal p q : predicate p -> predicate q ->
  call_returns I T "EncodingCheckPredicate::operator==" [p; q] /\ call_returns I T "EncodingCheckPredicate::operator!=" [p; q].
Proof.
  intros [m x Hm Hx] [m' x' Hm' Hx']. pose proof (all_predicates I T) as F. facts F.
  assert (K : pred_ok {| m_mask := m; m_value := x |}) by now split. assert (K' : pred_ok {| m_mask := m'; m_value := x' |}) by now split.
  split; eapply r_done; [apply (A7 _ _ K K') | apply (A8 _ _ K K')].
Qed.
Lemma s_apply p t P c : string_type t P -> P c -> predicate p -> call_returns I T "EncodingCheckPredicate::operator()" [p; VI t (norm I t c)].
Proof.
  intros Ht Hc [m x Hm Hx]. pose proof (all_predicates I T) as F. facts F.
  assert (K : pred_ok {| m_mask := m; m_value := x |}) by now split. destruct Ht; eapply r_done.
  - apply (A9 _ c K Hc); apply tables_bytes.
  - rewrite range16 by exact Hc. apply (A10 _ c K Hc).
  - rewrite range32 by exact Hc. apply (F _ c K Hc).
Qed.

(* wchar_t *)
Lemma t_copy (m : outcome bool) P p : total m -> ends P p -> total (do ok <- m; if ok then basic_string p else Done []).
Proof. intros H K. apply total_bind; [exact H|]. intros [] _; [now apply (t_basic P) | apply total_done]. Qed.
Lemma t_copied (m : outcome (list Z)) : total m -> total (do s <- m; basic_string (c_str s)).
Proof. intros H. apply total_bind; [exact H|]. intros a _. apply t_basic_string. Qed.
End Safe.

Ltac tot' := first [tot | eapply t_copy; [tot | side] | apply t_copied; tot].
Ltac ret' := match goal with H : _ |- call_returns _ _ _ _ =>
  first [eapply r_bool; [eapply H; side | tot'] | eapply r_string; [eapply H; side | tot'] | eapply r_int; [eapply H; side | tot']] end.

Section Wide.
Context (I : implementation) (v : version).
Let T := tables v.

Lemma s_wide_check f a : In f ["isUtf8"; "isUtf16"; "isUcs2"; "isUcs4"] -> text_or_null (wide_unit (configured I)) (wchar (configured I)) a -> call_returns I T f [a].
Proof.
  intros Hf H. destruct (configured I) eqn:C; cbn [wide_unit wchar] in H.
  1: pose proof (all_wide_checks I T C) as F.
  2-5: assert (W : wide16 (configured I) = true) by (now rewrite C); pose proof (all_checks16 I T W) as F.
  all: facts F; on_text; intros; destruct Hf as [<-|[<-|[<-|[<-|[]]]]]; ret'.
Qed.
Lemma s_wide_to f a : In f ["toUtf8"; "toUtf16"; "toUcs2"; "toUcs4"] -> text_of (wide_unit (configured I)) (wchar (configured I)) a -> call_returns I T f [a].
Proof.
  intros Hf H. destruct (configured I) eqn:C; cbn [wide_unit wchar] in H.
  1: pose proof (all_wide_conversions I T C) as F.
  2-5: assert (W : wide16 (configured I) = true) by (now rewrite C); pose proof (all_conversions16 I T W) as F.
  all: facts F; on_text; intros; destruct Hf as [<-|[<-|[<-|[<-|[]]]]]; ret'.
Qed.
Lemma wide_or : configured I = Wchar32 \/ wide16 (configured I) = true.
Proof. destruct (configured I); auto. Qed.
Lemma s_isWstring8 a : text_or_null byte Char a -> backs I a -> call_returns I T "isWstring" [a].
Proof. intros H. destruct wide_or as [C|C]; [pose proof (all_isWstring I T C) as F | pose proof (all_isWstring16 I T C) as F]; facts F; on_text; intros; ret'. Qed.
Lemma s_isWstring a : text_or_null unit16 Char16 a \/ text_or_null unit32 Char32 a -> call_returns I T "isWstring" [a].
Proof. intros [H|H]; (destruct wide_or as [C|C]; [pose proof (all_isWstring I T C) as F | pose proof (all_isWstring16 I T C) as F]; facts F; on_text; intros; ret'). Qed.
Lemma s_toWstring a : text_of byte Char a \/ text_of unit16 Char16 a \/ text_of unit32 Char32 a -> call_returns I T "toWstring" [a].
Proof. intros [H|[H|H]]; (destruct wide_or as [C|C]; [pose proof (all_toWstring I T C) as F | pose proof (all_toWstring16 I T C) as F]; facts F; on_text; intros; ret'). Qed.

(* Windows *)
Lemma s_narrow f a : windows (configured I) = true -> In f ["isUtf16"; "isUcs2"; "isUcs4"] -> text_or_null byte Char a -> backs I a -> call_returns I T f [a].
Proof. intros C Hf H. pose proof (all_windows I T C) as F. facts F. on_text; intros; destruct Hf as [<-|[<-|[<-|[]]]]; ret'. Qed.
Lemma s_narrow_to a : windows (configured I) = true -> text_of byte Char a -> backs I a -> call_returns I T "toUtf8" [a].
Proof. intros C H. pose proof (all_windows I T C) as F. facts F. on_text; intros; ret'. Qed.
Lemma tchar_or : In (configured I) [Win32_mbcs; Win32_unicode] -> configured I = Win32_mbcs \/ configured I = Win32_unicode.
Proof. intros [H|[H|[]]]; auto. Qed.
Lemma s_isTstring8 a : In (configured I) [Win32_mbcs; Win32_unicode] -> text_or_null byte Char a -> backs I a -> call_returns I T "isTstring" [a].
Proof. intros C H. destruct (tchar_or C) as [D|D]; [pose proof (all_mbcs I T D) as F | pose proof (all_unicode I T D) as F]; facts F; on_text; intros; ret'. Qed.
Lemma s_isTstring a : In (configured I) [Win32_mbcs; Win32_unicode] -> text_or_null unit16 Char16 a \/ text_or_null unit32 Char32 a -> call_returns I T "isTstring" [a].
Proof. intros C [H|H]; (destruct (tchar_or C) as [D|D]; [pose proof (all_mbcs I T D) as F | pose proof (all_unicode I T D) as F]; facts F; on_text; intros; ret'). Qed.

Lemma t_checked (m : outcome bool) (k : outcome (list Z)) : total m -> total k -> total (do ok <- m; if ok then do s <- k; basic_string (c_str s) else Done []).
Proof. intros H K. apply total_bind; [exact H|]. intros [] _; [now apply t_copied | apply total_done]. Qed.
Ltac tot2 := first [tot' | eapply t_checked; tot | eapply t_basic; eassumption | apply t_basic_string].
Ltac ret2 := match goal with H : _ |- call_returns _ _ _ _ => eapply r_string; [eapply H; side | tot2] end.
Lemma s_toTstring8 a : In (configured I) [Win32_mbcs; Win32_unicode] -> (configured I = Win32_mbcs -> forall s, a <> VS Char s) -> text_of byte Char a -> backs I a -> call_returns I T "toTstring" [a].
Proof.
  intros C N H. revert N. destruct (tchar_or C) as [D|D]; [pose proof (all_mbcs I T D) as F | pose proof (all_unicode I T D) as F]; facts F; on_text; intros; try ret2.
  exfalso. match goal with H : _ -> forall _, _ <> _ |- _ => exact (H D _ eq_refl) end.
Qed.
Lemma s_toTstring a t : In (configured I) [Win32_mbcs; Win32_unicode] -> (configured I = Win32_mbcs -> forall s, a <> VS t s) ->
  text_of unit16 Char16 a /\ t = Char16 \/ text_of unit32 Char32 a /\ t = Char32 -> call_returns I T "toTstring" [a].
Proof.
  intros C N [[H ->]|[H ->]]; revert N; (destruct (tchar_or C) as [D|D]; [pose proof (all_mbcs I T D) as F | pose proof (all_unicode I T D) as F]; facts F; on_text; intros; try ret2;
  exfalso; match goal with H : _ -> forall _, _ <> _ |- _ => exact (H D _ eq_refl) end).
Qed.
End Wide.

Ltac null_call F := facts F; match goal with H : _ |- call_returns _ _ _ [VP ?t PNull] =>
  eapply r_string; [apply (H [] Null); exact Logic.I | cbn; apply total_done] end.
Section Nulls.
Context (I : implementation) (v : version).
Let T := tables v.
Lemma s_wide_null f : In f (match configured I with Wchar32 => ["toUtf8"; "toUtf16"; "toUcs2"] | _ => ["toUtf8"; "toUcs4"] end) ->
  call_returns I T f [VP (wchar (configured I)) PNull].
Proof.
  intros Hf. destruct (configured I) eqn:C; cbn [wchar].
  1: destruct Hf as [<-|[<-|[<-|[]]]]; pose proof (all_wide_conversions I T C) as F; null_call F.
  all: assert (W : wide16 (configured I) = true) by (now rewrite C); destruct Hf as [<-|[<-|[]]]; pose proof (all_conversions16 I T W) as F; null_call F.
Qed.
Lemma s_toWstring_null t : In t (match configured I with Wchar32 => [Char; Char16] | _ => [Char; Char32] end) -> call_returns I T "toWstring" [VP t PNull].
Proof.
  intros Hf. destruct (configured I) eqn:C.
  1: destruct Hf as [<-|[<-|[]]]; pose proof (all_toWstring I T C) as F; null_call F.
  all: assert (W : wide16 (configured I) = true) by (now rewrite C); destruct Hf as [<-|[<-|[]]]; pose proof (all_toWstring16 I T W) as F; null_call F.
Qed.
Lemma s_toTstring_null t : In t (match configured I with Win32_mbcs => [Char16; Char32] | Win32_unicode => [Char; Char32] | _ => [] end) ->
  call_returns I T "toTstring" [VP t PNull].
Proof.
  intros Hf. destruct (configured I) eqn:C; try contradiction.
  1: destruct Hf as [<-|[<-|[]]]; pose proof (all_mbcs I T C) as F; null_call F.
  1: destruct Hf as [<-|[<-|[]]]; pose proof (all_unicode I T C) as F; null_call F.
Qed.
End Nulls.

Lemma text_range I P t a : text_or_null P t a -> in_range I a.
Proof. intros [x [s H|before us after H]|]; exact Logic.I. Qed.
Lemma text_range' I P t a : text_of P t a -> in_range I a.
Proof. intros H. exact (text_range I P t a (text_there P t a H)). Qed.
Lemma room_range I P t n a : has_room P t n a -> in_range I a.
Proof. intros [before us H L]. exact Logic.I. Qed.
Lemma pred_range I a : predicate a -> in_range I a.
Proof. intros [m x Hm Hx]. exact Logic.I. Qed.
Lemma char_range I t P c : string_type t P -> P c -> in_range I (VI t (norm I t c)).
Proof. intros [] H; cbn [in_range]; apply CxxPure.norm_twice. Qed.
Lemma options_range I l : options l -> Forall (in_range I) l.
Proof. intros [|t Ht|q Hq|t q Ht Hq]; repeat constructor; eapply pred_range; eassumption. Qed.
Lemma maybe_range I l : maybe_predicate l -> Forall (in_range I) l.
Proof. intros [|q Hq]; repeat constructor; eapply pred_range; eassumption. Qed.
Ltac arg := first [eapply text_range; eassumption | eapply text_range'; eassumption | eapply room_range; eassumption | eapply pred_range; eassumption |
  eapply char_range; eassumption | exact Logic.I].
Ltac ranges := repeat first [constructor; [arg|] | apply Forall_nil | now apply options_range | now apply maybe_range].

Lemma s_class I v f t P c : In f ["isUnicodeAssigned"; "isUnicodePrivate"; "isControlChar"; "isWhitespaceChar"] -> string_type t P -> P c ->
  exists r, linked_runs_to I v f [VI t (norm I t c)] (Done r).
Proof.
  intros Hf Ht Hc.
  assert (K : exists k, f = match k with Assigned => "isUnicodeAssigned" | Private => "isUnicodePrivate" | Control => "isControlChar" | Whitespace => "isWhitespaceChar" end).
  { destruct Hf as [<-|[<-|[<-|[<-|[]]]]]; [exists Assigned | exists Private | exists Control | exists Whitespace]; reflexivity. }
  destruct K as (k & ->). destruct (l_classes I v k) as (A & B & C). destruct Ht.
  - destruct (A c Hc) as (b & R & _). now exists (VB b).
  - rewrite range16 by exact Hc. destruct (B c Hc) as (b & R & _). now exists (VB b).
  - rewrite range32 by exact Hc. destruct (C c Hc) as (b & R & _). now exists (VB b).
Qed.

Lemma safe I v f args : call_of I f args -> exists r, linked_runs_to I v f args (Done r).
Proof.
  intros [].
  all: try solve [eapply s_class; eassumption | eexists; apply l_version].
  all: apply l_returns; [solve [repeat match goal with H : _ \/ _ |- _ => destruct H | H : _ /\ _ |- _ => destruct H end; ranges]|].
  all: try solve [eapply s_isUtf8; eassumption | eapply s_isUtf16; eassumption | eapply s_isUcs2; eassumption | eapply s_isUcs4; eassumption |
    eapply s_isUtf8_length; eassumption | eapply s_page; eassumption | eapply s_length8; eassumption | eapply s_length16; eassumption | eapply s_length32; eassumption |
    eapply s_length8_n; eassumption | eapply s_length16_n; eassumption | eapply s_length32_n; eassumption |
    eapply s_lower; eassumption | eapply s_lower_in; eassumption | eapply s_split; eassumption | eapply s_join; eassumption |
    now apply s_valid | now apply s_check | now apply s_and | now apply s_equal | eapply s_apply; eassumption |
    eapply s_wide_check; eassumption | eapply s_wide_to; eassumption | eapply s_isWstring8; eassumption | eapply s_isWstring; eassumption | eapply s_toWstring; eassumption |
    eapply s_narrow; eassumption | eapply s_narrow_to; eassumption | eapply s_isTstring8; eassumption | eapply s_isTstring; eassumption |
    eapply s_toTstring8; eassumption | eapply s_toTstring; eassumption | now apply s_wide_null | now apply s_toWstring_null | now apply s_toTstring_null].
  all: match goal with H : _ \/ _ |- _ => destruct H end;
    first [now apply s_toUtf8_16 | now apply s_toUtf8_32 | now apply s_toUcs2_8 | now apply s_toUcs2_32 | now apply s_toUtf16_8 | now apply s_toUtf16_32 | now apply s_toUcs4_8 | now apply s_toUcs4_16].
Qed.

Lemma left_string I v f args t m : Forall (in_range I) args -> leaves I (tables v) f args (string_of t m) -> total m -> exists r, linked_leaves I v f args (Done r).
Proof. intros H L (a & E). exists (VS t a). rewrite E in L. apply l_leaves; [exact H | discriminate | exact L]. Qed.
Lemma safe_edits I v f args : edit_of f args -> exists r, linked_leaves I v f args (Done r).
Proof.
  pose proof (all_trim I (tables v)) as F. pose proof (all_trims I (tables v)) as G. pose proof (all_predicates I (tables v)) as H0.
  intros [t P s [] Hs Hz|t P s sp [] Hs Hz Hp|s Hs Hz|t P s [] Hs Hz|p t Hp Ht|p t Hp Ht]; facts F; facts G.
  1-3: eapply left_string; [ranges | eauto | apply t_trim].
  1-3: eapply left_string; [ranges | eauto | apply t_trim_set].
  1: eapply left_string; [ranges | eauto | apply t_trim_set].
  1: eapply left_string; [ranges | eauto | now apply t_trim_8].
  1-2: eapply left_string; [ranges | eauto | apply t_trim_set].
  - destruct Hp as [m x Hm Hx]. assert (K : pred_ok {| m_mask := m; m_value := x |}) by now split.
    facts H0. eexists. apply l_leaves; [ranges | | match goal with H : forall p t, _ -> _ -> leaves _ _ _ _ _ |- _ => exact (H _ t K Ht) end]. discriminate.
  - destruct Hp as [m x Hm Hx]. assert (K : pred_ok {| m_mask := m; m_value := x |}) by now split.
    facts H0. eexists. apply l_leaves; [ranges | | match goal with H : forall p t, _ -> _ -> leaves _ _ _ _ _ |- _ => exact (H _ t K Ht) end]. discriminate.
Qed.

(* what is left out *)
Lemma l_undefined I v f args : Forall (in_range I) args -> runs_to I (tables v) f args Undefined -> linked_runs_to I v f args Undefined.
Proof. intros H R. apply l_runs; [exact H | discriminate | exact R]. Qed.
Ltac null_undefined F := facts F; apply l_undefined; [repeat constructor|]; match goal with H : _ |- _ => exact (H [] Null Logic.I) end.

Lemma left_out I v :
  linked_runs_to I v "unicodeLength" [VP Char16 PNull] Undefined /\ linked_runs_to I v "unicodeLength" [VP Char32 PNull] Undefined /\
  (configured I = Wchar32 -> linked_runs_to I v "toUcs4" [VP WChar32 PNull] Undefined /\ linked_runs_to I v "toWstring" [VP Char32 PNull] Undefined) /\
  (wide16 (configured I) = true -> linked_runs_to I v "toUtf16" [VP WChar16 PNull] Undefined /\ linked_runs_to I v "toUcs2" [VP WChar16 PNull] Undefined /\
     linked_runs_to I v "toWstring" [VP Char16 PNull] Undefined) /\
  (windows (configured I) = true -> linked_runs_to I v "toUtf8" [VP Char PNull] Undefined) /\
  (configured I = Win32_mbcs -> linked_runs_to I v "toTstring" [VP Char PNull] Undefined) /\
  (configured I = Win32_unicode -> linked_runs_to I v "toTstring" [VP Char16 PNull] Undefined) /\
  (forall t P s d, string_type t P -> P d -> holds s -> 0x80000000 <= occurrences d s ->
     linked_runs_to I v "split" [VS t s; VI t (norm I t d)] Undefined).
Proof.
  split; [|split; [|split; [|split; [|split; [|split; [|split]]]]]].
  - pose proof (all_unicodeLength I (tables v)) as F. facts F. apply l_undefined; [repeat constructor|].
    refine (A3 [] Null Logic.I _). right. exact Logic.I.
  - pose proof (all_unicodeLength I (tables v)) as F. null_undefined F.
  - intros C. split; [pose proof (all_wide_conversions I (tables v) C) as F | pose proof (all_toWstring I (tables v) C) as F]; null_undefined F.
  - intros C. split; [|split]; [pose proof (all_conversions16 I (tables v) C) as F | pose proof (all_conversions16 I (tables v) C) as F | pose proof (all_toWstring16 I (tables v) C) as F]; null_undefined F.
  - intros C. pose proof (all_windows I (tables v) C) as F. facts F. apply l_undefined; [repeat constructor|].
    refine (A5 [] Null Logic.I _). right. exact Logic.I.
  - intros C. pose proof (all_mbcs I (tables v) C) as F. facts F. apply l_undefined; [repeat constructor|].
    refine (A5 [] Null Logic.I _). right. exact Logic.I.
  - intros C. pose proof (all_unicode I (tables v) C) as F. null_undefined F.
  - intros t P s d Ht Hd Hz Ho. apply l_undefined; [ranges|]. exact (r_split_overflow I (tables v) t P s d Ht Hd Hz Ho).
Qed.

(* every function of the library is one of these or a helper *)
Lemma null_predicate : predicate (VPred 0 0).
Proof. constructor; split; [lia | reflexivity | lia | reflexivity]. Qed.
Lemma is_int_0 : is_int 0. Proof. split; [lia | reflexivity]. Qed.
Lemma byte_0 : byte 0x20. Proof. split; [lia | reflexivity]. Qed.
Definition public (c : configuration) : list string :=
  ["isUtf8"; "isUtf16"; "isUcs2"; "isUcs4"; "toUtf8"; "toUcs2"; "toUtf16"; "toUcs4"; "unicodeLength"; "toLower"; "split"; "join"; "validIf"; "validIfNot";
   "EncodingCheckPredicate::checkIf"; "EncodingCheckPredicate::checkIfNot"; "EncodingCheckPredicate::andIf"; "EncodingCheckPredicate::andIfNot";
   "EncodingCheckPredicate::operator=="; "EncodingCheckPredicate::operator!="; "EncodingCheckPredicate::operator()"; "isUnicodeAssigned"; "isUnicodePrivate";
   "getUnicodeVersionSupported"; "isWstring"; "toWstring"; "trim"; "trimAscii7WhiteSpace"; "trimWhiteSpace"] ++
  match c with Win32_mbcs | Win32_unicode => ["isTstring"; "toTstring"] | _ => [] end.
Lemma named c : forallb (fun n => existsb (String.eqb n) (helpers ++ public c)) (map f_name (functions c)) = true.
Proof. destruct c; vm_compute; reflexivity. Qed.
Lemma public_called I f : In f (public (configured I)) -> exists args, call_of I f args \/ edit_of f args.
Proof.
  assert (N8 : text_or_null byte Char (VP Char PNull)) by constructor. assert (B8 : backs I (VP Char PNull)) by (right; exact Logic.I).
  assert (N16 : text_or_null unit16 Char16 (VP Char16 PNull)) by constructor. assert (N32 : text_or_null unit32 Char32 (VP Char32 PNull)) by constructor.
  assert (T32 : text_of unit32 Char32 (VS Char32 [])) by (constructor; constructor).
  pose proof null_predicate as K. pose proof is_int_0 as J. pose proof byte_0 as B.
  unfold public. intros H. apply in_app_or in H as [H|H].
  - repeat (destruct H as [<-|H]; [eexists; first
      [left; apply call_isUtf8 with (l := []); [apply N8 | apply B8 | constructor] | left; apply call_isUtf16 with (l := []); [apply N16 | constructor] |
       left; apply call_isUcs2 with (l := []); [apply N16 | constructor] | left; apply call_isUcs4 with (l := []); [apply N32 | constructor] |
       left; apply call_toUtf8; left; apply N16 | left; apply call_toUcs2; left; apply N8 | left; apply call_toUtf16; left; apply N8 |
       left; apply call_toUcs4; left; apply N8 | left; apply call_length32; apply T32 |
       left; eapply call_toLower with (s := []); [apply of_char | constructor] |
       left; eapply call_split with (s := []) (d := 0x20); [apply of_char | apply B | reflexivity | reflexivity] |
       left; eapply call_join with (ss := []) (d := 0x20); [apply of_char | apply B] |
       left; apply call_validIf; apply J | left; apply call_validIfNot; apply J | left; apply call_checkIf; apply J | left; apply call_checkIfNot; apply J |
       left; apply call_andIf; [apply K | apply J] | left; apply call_andIfNot; [apply K | apply J] |
       left; apply call_equal; apply K | left; apply call_unequal; apply K |
       left; eapply call_apply with (c := 0x20); [apply of_char | apply B | apply K] |
       left; eapply call_class with (c := 0x20); [cbn; tauto | apply of_char | apply B] |
       left; apply call_version | left; apply call_isWstring8; [apply N8 | apply B8] | left; apply call_toWstring; right; right; apply T32 |
       right; eapply edit_trim with (s := []); [apply of_char | constructor | reflexivity] |
       right; apply edit_ascii with (s := []); [constructor | reflexivity] |
       right; eapply edit_white with (s := []); [apply of_char | constructor | reflexivity]]|]). contradiction.
  - destruct (configured I) eqn:C; try contradiction; (destruct H as [<-|[<-|[]]]; eexists; left;
      [apply call_isTstring8; [rewrite C; cbn; tauto | apply N8 | apply B8] | apply call_toTstring_null with (t := Char32); rewrite C; cbn; tauto]).
Qed.
Lemma every_function I f : In f (functions (configured I)) -> In (f_name f) helpers \/ exists args, call_of I (f_name f) args \/ edit_of (f_name f) args.
Proof.
  intros H. pose proof (named (configured I)) as N. rewrite forallb_forall in N. specialize (N (f_name f) (in_map f_name _ _ H)).
  apply existsb_exists in N as (n & Hn & E). apply String.eqb_eq in E. subst n.
  apply in_app_or in Hn as [Hn|Hn]; [left; exact Hn | right; now apply public_called].
Qed.

Lemma case_safe : call_of strict "isUtf8" [VP Char (PAt [0x41; 0xC3; 0; 0xFF] 1); VI Enum 7] /\
  call_of strict "toUcs4" [VP Char16 (PAt [0xDC00; 0; 0xD800] 0)] /\ edit_of "trim" [VS Char32 [0x20; 0; 0x20]] /\
  call_of (machine false Win32_unicode) "toTstring" [VS Char [0xFF; 0; 0x41]] /\
  ~ call_of strict "unicodeLength" [VP Char16 PNull].
Proof.
  split; [|split; [|split; [|split]]].
  - apply call_isUtf8.
    + apply text_there. apply (text_pointer byte Char [0x41] [0xC3] [0xFF]). repeat constructor; cbn; lia.
    + right. reflexivity.
    + constructor. split; [lia | reflexivity].
  - apply call_toUcs4. right. apply text_there. apply (text_pointer unit16 Char16 [] [0xDC00] [0xD800]). repeat constructor; cbn; lia.
  - eapply edit_trim; [apply of_char32 | repeat constructor; lia | reflexivity].
  - apply call_toTstring8; [cbn; tauto | constructor; repeat constructor; lia | left; reflexivity | discriminate].
  - intros H. inversion H; subst; repeat match goal with H : In _ _ |- _ => cbn in H; decompose [or] H; clear H end; try discriminate;
      match goal with H : text_of _ _ _ |- _ => inversion H | H : text_or_null _ _ _ |- _ => inversion H; subst; match goal with K : text_of _ _ _ |- _ => inversion K end end.
Qed.
