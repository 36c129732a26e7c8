(* Every version of source/bits<N> provides what the rest of the library calls; what the linked library does. *)
From Coq Require Import ZArith List Bool String Lia.
From Verif Require Import Machine.
From Verif.Model Require Import Tables Internal Predicate CodePage.
From Verif.Cxx Require Import Syntax Semantics Program Values Linked.
From Verif.Spec Require Import Utf Target Result Text Chain Ucd Lowercase Case CodePage Version Source Linked.
From Verif.Gen Require Import Source.
From Verif.Proof Require Import Bits Classes TablesFacts Predicates PredicateWitness CxxTools CxxMono CxxMore CxxResults CxxEndToEnd CxxWides CxxRest
  CxxPure CxxLink CxxLinked.
From Verif.Proof Require CxxBits7 CxxBits8 CxxBits9 CxxBits10 CxxBits11 CxxBits12 CxxBits13 CxxBits14 CxxBits15 CxxBits16.
Import ListNotations.
Local Open Scope string_scope.
Local Open Scope list_scope.
Local Open Scope Z_scope.

Lemma all_provide v : provides (bits_of v) (tables v).
Proof.
  destruct v.
  - exact CxxBits7.provided.
  - exact CxxBits8.provided.
  - exact CxxBits9.provided.
  - exact CxxBits10.provided.
  - exact CxxBits11.provided.
  - exact CxxBits12.provided.
  - exact CxxBits13.provided.
  - exact CxxBits14.provided.
  - exact CxxBits15.provided.
  - exact CxxBits16.provided.
Qed.

(* ---------------------------------------------------------------- from the model's tables to the linked library *)

Lemma l_runs I v f args r : Forall (in_range I) args -> r <> OutOfFuel ->
  runs_to I (tables v) f args r -> linked_runs_to I v f args r.
Proof.
  intros HA HR (n & H). exists (n + List.length (bits_of v))%nat.
  exact (linked_finishes (fun a => Done (fst a)) I v f args r n (all_provide v) HA HR H).
Qed.
Lemma l_leaves I v f args r : Forall (in_range I) args -> r <> OutOfFuel ->
  leaves I (tables v) f args r -> linked_leaves I v f args r.
Proof.
  intros HA HR (n & H). exists (n + List.length (bits_of v))%nat.
  exact (linked_finishes (fun a => match snd a with Some v :: _ => Done v | _ => Undefined end) I v f args r n (all_provide v) HA HR H).
Qed.
Lemma l_transfer I v f args r : Forall (in_range I) args -> r <> OutOfFuel ->
  (runs_to I (tables v) f args r -> linked_runs_to I v f args r) /\
  (leaves I (tables v) f args r -> linked_leaves I v f args r).
Proof. intros HA HR. split; [now apply l_runs | now apply l_leaves]. Qed.

(* one answer *)
Lemma l_once I v f args r r' : linked_runs_to I v f args r -> linked_runs_to I v f args r' -> r = r'.
Proof.
  intros (n & H) (n' & H'). rewrite <- (H (n + n')%nat (n + n')%nat), <- (H' (n + n')%nat (n + n')%nat) by lia. reflexivity.
Qed.

(* ---------------------------------------------------------------- the functions of source/bits<N> *)

Lemma given_runs I T f args w : external T f args = Some w -> runs_to I T f args (Done w).
Proof. intros H. exists 1%nat. intros fuel [|depth] _ Hd; [lia|]. unfold call. cbn [Semantics.run]. rewrite H. reflexivity. Qed.

Lemma range16 I c : unit16 c -> norm I Char16 c = c.
Proof. unfold unit16, norm. cbn. lia. Qed.
Lemma range32 I c : unit32 c -> norm I Char32 c = c.
Proof. unfold unit32, norm. cbn. lia. Qed.
Lemma bits_norm I c : byte c -> Semantics.bits Char (norm I Char c) = c.
Proof. intros H. unfold byte in H. unfold Semantics.bits, norm. cbn. destruct (char_signed I); cbn; lia. Qed.

Ltac one := repeat constructor; cbn [in_range]; first [now apply norm_twice | now apply range16 | now apply range32 | idtac].
Ltac char_fun := intros; apply l_runs; [constructor; [|constructor]; cbn [in_range];
    first [apply norm_twice | now apply range16 | now apply range32] | discriminate |
  apply given_runs; cbn [external]; rewrite ?bits_norm by assumption; reflexivity].

Lemma l_characters I v :
  (forall c, unit16 c -> linked_runs_to I v "isUnicodeAssigned" [VI Char16 c] (Done (VB (t_assigned16 (tables v) c)))) /\
  (forall c, unit32 c -> linked_runs_to I v "isUnicodeAssigned" [VI Char32 c] (Done (VB (t_assigned32 (tables v) c)))) /\
  (forall c, unit16 c -> linked_runs_to I v "isUnicodePrivate" [VI Char16 c] (Done (VB (t_private16 (tables v) c)))) /\
  (forall c, unit32 c -> linked_runs_to I v "isUnicodePrivate" [VI Char32 c] (Done (VB (t_private32 (tables v) c)))) /\
  (forall c, byte c -> linked_runs_to I v "isControlChar" [VI Char (norm I Char c)] (Done (VB (t_control8 (tables v) c)))) /\
  (forall c, unit16 c -> linked_runs_to I v "isControlChar" [VI Char16 c] (Done (VB (t_control16 (tables v) c)))) /\
  (forall c, unit32 c -> linked_runs_to I v "isControlChar" [VI Char32 c] (Done (VB (t_control32 (tables v) c)))) /\
  (forall c, byte c -> linked_runs_to I v "isWhitespaceChar" [VI Char (norm I Char c)] (Done (VB (t_space8 (tables v) c)))) /\
  (forall c, unit16 c -> linked_runs_to I v "isWhitespaceChar" [VI Char16 c] (Done (VB (t_space16 (tables v) c)))) /\
  (forall c, unit32 c -> linked_runs_to I v "isWhitespaceChar" [VI Char32 c] (Done (VB (t_space32 (tables v) c)))) /\
  (forall c, unit32 c -> linked_runs_to I v "internal::toLower" [VI Char32 c] (Done (VI Char32 (t_lower (tables v) c)))) /\
  (forall c, unit32 c -> linked_runs_to I v "internal::turkicToLower" [VI Char32 c] (Done (VI Char32 (t_turkic (tables v) c)))).
Proof. repeat (split; [char_fun|]). char_fun. Qed.

Lemma l_version I v : linked_runs_to I v "getUnicodeVersionSupported" [] (Done (VS Char (text (t_version (tables v))))).
Proof.
  apply l_runs; [constructor | discriminate|]. exists 3%nat. intros [|[|[|fuel]]] [|[|[|depth]]] Hf Hd; try lia.
  enter c_getUnicodeVersionSupported. reflexivity.
Qed.
Lemma l_version_text I v : linked_runs_to I v "getUnicodeVersionSupported" [] (Done (VS Char (text (append (decimal (number v)) ".0.0")))).
Proof. pose proof (l_version I v) as H. destruct v; exact H. Qed.

(* isUnicodeAssigned(char) and isUnicodePrivate(char) are defined in the header *)
Lemma own_assigned I T c : byte c -> runs_to I T "isUnicodeAssigned" [VI Char (norm I Char c)] (Done (VB true)).
Proof.
  intros H. exists 3%nat. intros [|[|[|fuel]]] [|[|[|depth]]] Hf Hd; try lia. enter c_isUnicodeAssigned. reflexivity.
Qed.
Lemma own_private I T c : byte c -> runs_to I T "isUnicodePrivate" [VI Char (norm I Char c)] (Done (VB false)).
Proof.
  intros H. exists 3%nat. intros [|[|[|fuel]]] [|[|[|depth]]] Hf Hd; try lia. enter c_isUnicodePrivate. reflexivity.
Qed.

Lemma units_8 c : byte c -> unit32 c. Proof. unfold byte, unit32. lia. Qed.
Lemma units_16 c : unit16 c -> unit32 c. Proof. unfold unit16, unit32. lia. Qed.

Lemma answered I v f args b P : linked_runs_to I v f args (Done (VB b)) -> (b = true <-> P) -> linked_answers I v f args P.
Proof. intros H K. exists b. auto. Qed.

Lemma l_classes I v k :
  let f := match k with Assigned => "isUnicodeAssigned" | Private => "isUnicodePrivate" | Control => "isControlChar" | Whitespace => "isWhitespaceChar" end in
  (forall c, byte c -> linked_answers I v f [VI Char (norm I Char c)] (member v k c)) /\
  (forall c, unit16 c -> linked_answers I v f [VI Char16 c] (member v k c)) /\
  (forall c, unit32 c -> linked_answers I v f [VI Char32 c] (member v k c)).
Proof.
  destruct (l_characters I v) as (A2 & A4 & P2 & P4 & C1 & C2 & C4 & S1 & S2 & S4 & _).
  destruct k; cbn [member]; (split; [|split]); intros c Hc.
  - eapply answered; [apply l_runs; [repeat constructor; apply norm_twice | discriminate | now apply own_assigned]|].
    rewrite <- assigned_exact, <- assigned_8 by (try apply units_8; assumption).
    destruct (tables_bytes v c) as [-> _]. tauto.
  - eapply answered; [exact (A2 c Hc)|]. rewrite assigned_16 by exact Hc. apply assigned_exact. now apply units_16.
  - eapply answered; [exact (A4 c Hc)|]. now apply assigned_exact.
  - eapply answered; [apply l_runs; [repeat constructor; apply norm_twice | discriminate | now apply own_private]|].
    rewrite <- private_exact, <- private_8 by (unfold byte in Hc; lia). destruct (tables_bytes v c) as [_ ->]. tauto.
  - eapply answered; [exact (P2 c Hc)|]. rewrite private_16 by exact Hc. apply private_exact. unfold unit16 in Hc. lia.
  - eapply answered; [exact (P4 c Hc)|]. apply private_exact. unfold unit32 in Hc. lia.
  - eapply answered; [exact (C1 c Hc)|]. rewrite control_8 by exact Hc. apply control_exact. unfold byte in Hc. lia.
  - eapply answered; [exact (C2 c Hc)|]. rewrite control_16 by exact Hc. apply control_exact. unfold unit16 in Hc. lia.
  - eapply answered; [exact (C4 c Hc)|]. apply control_exact. unfold unit32 in Hc. lia.
  - eapply answered; [exact (S1 c Hc)|]. rewrite space_8 by exact Hc. apply space_exact. unfold byte in Hc. lia.
  - eapply answered; [exact (S2 c Hc)|]. rewrite space_16 by exact Hc. apply space_exact. unfold unit16 in Hc. lia.
  - eapply answered; [exact (S4 c Hc)|]. apply space_exact. unfold unit32 in Hc. lia.
Qed.

(* ---------------------------------------------------------------- the end-to-end statements *)

Lemma l_converts I v f args t reads enc : Forall (in_range I) args -> call_converts I (tables v) f args t reads enc ->
  linked_converts I v f args t reads enc.
Proof. intros HA [A B]. split; intros; apply l_runs; auto; discriminate. Qed.
Lemma l_answers I v f args P : Forall (in_range I) args -> call_answers I (tables v) f args P -> linked_answers I v f args P.
Proof. intros HA (b & A & B). exists b. split; [|exact B]. apply l_runs; auto; discriminate. Qed.
Ltac args := repeat constructor.

Lemma l_conversions I v :
  (forall bs, text8 bs -> linked_converts I v "toUcs4" [VS Char bs] Char32 (fun cs => reads_as cs bs) (fun cs => cs)) /\
  (forall bs, text8 bs -> linked_converts I v "toUtf16" [VS Char bs] Char16
     (fun cs => reads_as cs bs /\ Forall (fun c => c <= 0x10FFFF) cs) (flat_map utf16_units)) /\
  (forall bs, text8 bs -> linked_converts I v "toUcs2" [VS Char bs] Char16
     (fun cs => reads_as cs bs /\ Forall (fun c => c <= 0xFFFF) cs) (fun cs => cs)) /\
  (forall us, text32 us -> linked_converts I v "toUtf8" [VS Char32 us] Char
     (fun cs => cs = us /\ Forall encodable8 cs) (flat_map utf8_bytes)) /\
  (forall us, text32 us -> linked_converts I v "toUtf16" [VS Char32 us] Char16
     (fun cs => cs = us /\ Forall scalar cs) (flat_map utf16_units)) /\
  (forall us, text32 us -> linked_converts I v "toUcs2" [VS Char32 us] Char16
     (fun cs => cs = us /\ Forall bmp cs) (fun cs => cs)) /\
  (forall us, text16 us -> linked_converts I v "toUcs4" [VS Char16 us] Char32
     (fun cs => reads_as16 cs us) (fun cs => cs)) /\
  (forall us, text16 us -> linked_converts I v "toUtf8" [VS Char16 us] Char
     (fun cs => lenient_as16 cs us) (flat_map utf8_bytes)).
Proof.
  destruct (e_conversions I (tables v)) as (C1 & C2 & C3 & C4 & C5 & C6 & C7 & C8).
  repeat split; intros; apply l_runs; try discriminate; try (now args);
    [apply (C1 bs) | apply (C1 bs) | apply (C2 bs) | apply (C2 bs) | apply (C3 bs) | apply (C3 bs) | apply (C4 us) | apply (C4 us)
    |apply (C5 us) | apply (C5 us) | apply (C6 us) | apply (C6 us) | apply (C7 us) | apply (C7 us) | apply (C8 us) | apply (C8 us)]; assumption.
Qed.

Lemma l_checks I v :
  (forall bs t, pointer_checks I = false -> text8 bs ->
     linked_answers I v "isUtf8" [VS Char bs; VI Enum (code t)] (acceptable8 (range_isUtf8 t) (possible_lead t) bs)) /\
  (forall us t, text16 us ->
     linked_answers I v "isUtf16" [VS Char16 us; VI Enum (code t)] (acceptable16 (documented t) (supplementary_target t) us)) /\
  (forall us t, text16 us ->
     linked_answers I v "isUcs2" [VS Char16 us; VI Enum (code t)] (Forall (fun c => bmp c /\ documented t c) us)) /\
  (forall us t, text32 us ->
     linked_answers I v "isUcs4" [VS Char32 us; VI Enum (code t)] (Forall (range_isUcs4 t) us)).
Proof.
  destruct (e_checks I (tables v)) as (C1 & C2 & C3 & C4).
  repeat split; intros; apply l_answers; try (now args); auto.
Qed.

Lemma l_lower I v :
  (forall s, Forall unit32 s -> exists r, linked_runs_to I v "toLower" [VS Char32 s] (Done (VS Char32 r)) /\
     Forall2 (fun c d => (lowers_to v c d <-> ~ departs v c) /\
       (in_ranges (lower_missing v) c -> d = c) /\ (forall d', In (c, d') (lower_extra v) -> d = d')) s r) /\
  (forall bs cs, text8 bs -> reads_as cs bs -> exists low,
     linked_runs_to I v "toLower" [VS Char32 cs] (Done (VS Char32 low)) /\
     linked_runs_to I v "toLower" [VS Char bs] (Done (VS Char (flat_map utf8_bytes low)))) /\
  (forall bs, text8 bs -> (forall cs, ~ reads_as cs bs) -> linked_runs_to I v "toLower" [VS Char bs] (Done (VS Char []))) /\
  (forall us cs, text16 us -> reads_as16 cs us -> exists low,
     linked_runs_to I v "toLower" [VS Char32 cs] (Done (VS Char32 low)) /\
     linked_runs_to I v "toLower" [VS Char16 us] (Done (VS Char16 (flat_map utf16_units low)))) /\
  (forall us, text16 us -> (forall cs, ~ reads_as16 cs us) -> linked_runs_to I v "toLower" [VS Char16 us] (Done (VS Char16 []))).
Proof.
  destruct (r_lower I v) as (A & B & C & D & E). split; [|split; [|split; [|split]]].
  - intros s H. destruct (A s H) as (r & R & K). exists r. split; [|exact K]. apply l_runs; [now args | discriminate | exact R].
  - intros bs cs H K. destruct (B bs cs H K) as (r & R & R'). exists r. split; apply l_runs; try discriminate; try (now args); assumption.
  - intros bs H K. apply l_runs; [now args | discriminate | now apply C].
  - intros bs cs H K. destruct (D bs cs H K) as (r & R & R'). exists r. split; apply l_runs; try discriminate; try (now args); assumption.
  - intros bs H K. apply l_runs; [now args | discriminate | now apply E].
Qed.

(* ---------------------------------------------------------------- chains of predicates *)

Lemma build_snoc l b t : l <> [] -> build (l ++ [(b, t)]) = (if b then andIf (build l) t else andIfNot (build l) t).
Proof. destruct l as [|[b0 t0] l]; [congruence|]. intros _. cbn [build app]. rewrite fold_left_app. cbn [fold_left fst snd]. destruct b; reflexivity. Qed.

Lemma l_is I v f args p q : linked_runs_to I v f args (Done p) -> Forall (in_range I) args -> runs_to I (tables v) f args (Done q) -> p = q.
Proof.
  intros H HA R. apply (l_runs _ _ _ _ _ HA) in R; [|discriminate]. pose proof (l_once _ _ _ _ _ _ H R) as E. now injection E.
Qed.
Lemma makes_build I v l p : makes I v l p -> Forall (fun c => int32 (snd c)) l -> p = vpred (build l) /\ pred_ok (build l) /\ l <> [].
Proof.
  destruct (all_predicates I (tables v)) as (P1 & P2 & _ & _ & P5 & P6 & _).
  induction 1 as [b t p H | l p b t q _ IH H]; intros HF.
  - apply Forall_inv in HF. cbn [snd] in HF. destruct b.
    + split; [|split; [|discriminate]]; [|apply CxxPred.make_ok].
      exact (l_is _ _ _ _ _ _ H ltac:(args) (P1 t HF)).
    + split; [|split; [|discriminate]]; [|apply CxxPred.make_ok].
      exact (l_is _ _ _ _ _ _ H ltac:(args) (P2 t HF)).
  - apply Forall_app in HF as [HF Ht]. apply Forall_inv in Ht. cbn [snd] in Ht. destruct (IH HF) as (-> & Ho & Hn).
    rewrite build_snoc by exact Hn. split; [|split].
    + destruct b.
      * exact (l_is _ _ _ _ _ _ H ltac:(args) (P5 _ t Ho Ht)).
      * exact (l_is _ _ _ _ _ _ H ltac:(args) (P6 _ t Ho Ht)).
    + destruct b; [now apply CxxPred.andIf_ok | now apply CxxPred.andIfNot_ok].
    + intros E. now apply app_eq_nil in E as [_ E].
Qed.
Lemma makes_some I v l : l <> [] -> Forall (fun c => int32 (snd c)) l -> exists p, makes I v l p.
Proof.
  destruct (all_predicates I (tables v)) as (P1 & P2 & _ & _ & P5 & P6 & _).
  induction l as [|[b t] l IH] using rev_ind; [congruence|]. intros _ HF. apply Forall_app in HF as [HF Ht]. apply Forall_inv in Ht. cbn [snd] in Ht.
  destruct l as [|c l].
  - exists (vpred (if b then validIf t else validIfNot t)). apply makes_first.
    destruct b; apply l_runs; try discriminate; try (now args); auto.
  - destruct (IH ltac:(discriminate) HF) as (p & Hp). destruct (makes_build _ _ _ _ Hp HF) as (-> & Ho & _).
    eexists. apply (makes_next I v (c :: l) _ b t (vpred (if b then andIf (build (c :: l)) t else andIfNot (build (c :: l)) t)) Hp).
    destruct b; apply l_runs; try discriminate; try (now args); auto.
Qed.

Lemma l_chains I v chain : chain <> [] -> Forall (fun c => int32 (snd c)) chain -> consistent chain ->
  exists p, makes I v chain p /\
  (forall c, byte c -> linked_answers I v "EncodingCheckPredicate::operator()" [p; VI Char (norm I Char c)] (meets v chain c)) /\
  (forall c, unit16 c -> linked_answers I v "EncodingCheckPredicate::operator()" [p; VI Char16 c] (meets v chain c)) /\
  (forall c, unit32 c -> linked_answers I v "EncodingCheckPredicate::operator()" [p; VI Char32 c] (meets v chain c)).
Proof.
  intros Hn HF HC. destruct (makes_some I v chain Hn HF) as (p & Hp). exists p. split; [exact Hp|].
  destruct (makes_build _ _ _ _ Hp HF) as (-> & Ho & _).
  destruct (all_predicates I (tables v)) as (_ & _ & _ & _ & _ & _ & _ & _ & _ & _ & Q1 & Q2 & Q4).
  split; [|split]; intros c Hc.
  - eapply answered; [apply l_runs; [constructor; [exact Logic.I | constructor; [apply norm_twice | constructor]] | discriminate |
      apply Q1; try assumption; apply tables_bytes]|].
    rewrite (proj1 (overloads_agree v _ c)) by exact Hc. apply chain_meets; [now apply units_8 | exact HC].
  - eapply answered; [apply l_runs; [constructor; [exact Logic.I | constructor; [now apply range16 | constructor]] | discriminate | now apply Q2]|].
    rewrite (proj2 (overloads_agree v _ c)) by exact Hc. apply chain_meets; [now apply units_16 | exact HC].
  - eapply answered; [apply l_runs; [constructor; [exact Logic.I | constructor; [now apply range32 | constructor]] | discriminate | now apply Q4]|].
    apply chain_meets; assumption.
Qed.

(* ---------------------------------------------------------------- the strings *)

Lemma delimiter_ok I t P s d : string_type t P -> P d -> Forall (in_range I) [VS t s; VI t (norm I t d)].
Proof. intros Ht Hd. constructor; [exact Logic.I|]. constructor; [|constructor]. destruct Ht; cbn [in_range]; apply norm_twice. Qed.
Lemma delimiters_ok I t P ss d : string_type t P -> P d -> Forall (in_range I) [VVec t ss; VI t (norm I t d)].
Proof. intros Ht Hd. constructor; [exact Logic.I|]. constructor; [|constructor]. destruct Ht; cbn [in_range]; apply norm_twice. Qed.

Lemma l_strings I v :
  (forall t P s sp, string_type t P -> Forall P s -> holds s -> holds sp ->
     exists r, linked_leaves I v "trim" [VS t s; VS t sp] (Done (VS t r)) /\ trimmed (fun c => In c sp) s r) /\
  (forall bs cs, text8 bs -> holds bs -> reads_as cs bs -> Forall upto cs -> exists r, trimmed wide_blank cs r /\
     linked_leaves I v "trimWhiteSpace" [VS Char bs] (Done (VS Char (flat_map utf8_bytes r)))) /\
  (forall t P s d, string_type t P -> P d -> holds s -> s <> [] -> occurrences d s < 0x80000000 ->
     exists w, linked_runs_to I v "split" [VS t s; VI t (norm I t d)] (Done (VVec t w)) /\ cut_at d s w) /\
  (forall t P s d, string_type t P -> P d -> holds s -> 0x80000000 <= occurrences d s ->
     linked_runs_to I v "split" [VS t s; VI t (norm I t d)] Undefined) /\
  (forall t P ss d, string_type t P -> P d -> d <> 0 ->
     linked_runs_to I v "join" [VVec t ss; VI t (norm I t d)] (Done (VS t (glue d ss)))) /\
  (forall bs, text8 bs ->
     linked_converts I v "toUtf8" [VP Char (PAt (bs ++ [0]) 0); VI Enum kSrcCP1252] Char (stand_for page1252 bs) (flat_map utf8_bytes) /\
     linked_converts I v "toUtf8" [VP Char (PAt (bs ++ [0]) 0); VI Enum kSrcCP1250] Char (stand_for page1250 bs) (flat_map utf8_bytes)).
Proof.
  destruct (r_trims I (tables v)) as (_ & A & _ & _ & B). destruct (r_splits I (tables v)) as (C & _ & D).
  split; [|split; [|split; [|split; [|split]]]].
  - intros t P s sp Ht Hs Hz Hp. destruct (A t P s sp Ht Hs Hz Hp) as (r & R & K). exists r. split; [|exact K].
    apply l_leaves; [now args | discriminate | exact R].
  - intros bs cs Ht Hz Hr Hu. destruct (proj1 (B bs Ht Hz) cs Hr Hu) as (r & K & R). exists r. split; [exact K|].
    apply l_leaves; [now args | discriminate | exact R].
  - intros t P s d Ht Hd Hz Hn Ho. destruct (C t P s d Ht Hd Hz Hn Ho) as (w & R & K). exists w. split; [|exact K].
    apply l_runs; [now apply (delimiter_ok I t P) | discriminate | exact R].
  - intros t P s d Ht Hd Hz Ho. apply l_runs; [now apply (delimiter_ok I t P) | discriminate | now apply (D t P)].
  - intros t P ss d Ht Hd Hn. apply l_runs; [now apply (delimiters_ok I t P) | discriminate | now apply (r_join I (tables v) t P)].
  - intros bs Ht. destruct (r_pages I (tables v) bs Ht) as (E & F & _). split; apply l_converts; try (now args); assumption.
Qed.

(* ---------------------------------------------------------------- cases *)

Lemma case_characters : unit32 0x1E921 /\ member V16 Private 0xE000 /\ ~ member V7 Assigned 0x1E921 /\
  linked strict V16 20 10 "isUnicodeAssigned" [VI Char32 0x1E921] = Done (VB true, [None]) /\
  linked strict V7 20 10 "isUnicodeAssigned" [VI Char32 0x1E921] = Done (VB false, [None]) /\
  linked strict V16 20 10 "isUnicodePrivate" [VI Char16 0xE000] = Done (VB true, [None]) /\
  linked strict V12 20 10 "isWhitespaceChar" [VI Char (-0x60)] = Done (VB true, [None]) /\
  linked strict V16 20 10 "internal::toLower" [VI Char32 0x1E921] = Done (VI Char32 0x1E943, [None]) /\
  linked strict V9 20 10 "internal::turkicToLower" [VI Char32 0x49] = Done (VI Char32 0x131, [None]) /\
  linked strict V13 20 10 "getUnicodeVersionSupported" [] = Done (VS Char [0x31; 0x33; 0x2E; 0x30; 0x2E; 0x30], []).
Proof.
  split; [unfold unit32; lia|]. split; [apply LowerTools.inside_spec; vm_compute; reflexivity|].
  split; [cbn [member]; rewrite <- LowerTools.inside_spec; vm_compute; discriminate|].
  repeat split; reflexivity.
Qed.
Lemma case_linked : text8 [0x49; 0xC3; 0x89] /\ reads_as [0x49; 0xC9] [0x49; 0xC3; 0x89] /\
  linked strict V9 20 10 "toLower" [VS Char [0x49; 0xC3; 0x89]] = Done (VS Char [0x69; 0xC3; 0xA9], [None; None]) /\
  linked strict V16 20 10 "toUtf16" [VS Char [0xF0; 0x9F; 0x98; 0x80]] = Done (VS Char16 [0xD83D; 0xDE00], [None]) /\
  consistent [(true, kIsAssigned); (false, kIsWhitespace)] /\ meets V16 [(true, kIsAssigned); (false, kIsWhitespace)] 0x41 /\
  linked strict V16 20 10 "validIf" [VI Enum kIsAssigned] = Done (VPred 1 1, [None]) /\
  linked strict V16 20 10 "EncodingCheckPredicate::andIfNot" [VPred 1 1; VI Enum kIsWhitespace] = Done (VPred 9 1, [Some (VPred 9 1); None]) /\
  linked strict V16 20 10 "EncodingCheckPredicate::operator()" [VPred 9 1; VI Char32 0x41] = Done (VB true, [None; None]) /\
  linked strict V16 20 10 "EncodingCheckPredicate::operator()" [VPred 9 1; VI Char32 0x3000] = Done (VB false, [None; None]) /\
  linked strict V16 20 10 "isUtf16" [VS Char16 [0x41; 0xD83D; 0xDE00]; VI Enum kUnicode] = Done (VB true, [None; None; None]).
Proof.
  split; [repeat constructor; discriminate|].
  split. { exists [0x49; 0xC3; 0x89], []. split; [reflexivity|]. split; [|now left].
    apply (text_cons 0x49 [0x49] [0xC9] [0xC3; 0x89]); [apply (seq_plain 0x49); unfold encodable8, surrogate; lia|].
    apply (text_cons 0xC9 [0xC3; 0x89] [] []); [apply (seq_plain 0xC9); unfold encodable8, surrogate; lia|constructor]. }
  split; [reflexivity|]. split; [reflexivity|].
  split. { intros k [Hr Hf]. unfold requires, forbids in *. cbn in *. destruct k; cbn in *; intuition discriminate. }
  split. { split; intros k Hk; unfold requires, forbids in Hk; cbn [In] in Hk; destruct k; cbn [class_code] in Hk;
      try (exfalso; intuition discriminate).
    - apply LowerTools.inside_spec. vm_compute. reflexivity.
    - intros [K|K]; rewrite <- LowerTools.inside_spec in K; vm_compute in K; discriminate K. }
  repeat split; reflexivity.
Qed.
