(* What the parsed source of trim, split, join, toLower and the code pages does, in terms of the specification. *)
From Coq Require Import ZArith List Bool String Lia.
From Verif Require Import Machine.
From Verif.Model Require Import Tables Internal Predicate Decode Str Lower CodePage Trim SplitJoin.
From Verif.Cxx Require Import Syntax Semantics Program Values.
From Verif.Spec Require Import Utf Target Result Text Chain Ucd Lowercase Case CodePage Source.
From Verif.Proof Require Import Bits CxxTools CxxMono CxxAnswers CxxResults CxxEndToEnd CxxMore SplitFacts TrimFacts CaseFacts
  TablesFacts CodePageFacts Consequences.
Import ListNotations.
Local Open Scope string_scope.
Local Open Scope list_scope.
Local Open Scope Z_scope.

Section Rest.
Context (I : implementation) (T : UnicodeTables).

Lemma leaves_done f args t m r : leaves I T f args (string_of t m) -> m = Done r -> leaves I T f args (Done (VS t r)).
Proof. intros H ->. exact H. Qed.
Lemma runs_done f args t m r : runs_to I T f args (string_of t m) -> m = Done r -> runs_to I T f args (Done (VS t r)).
Proof. intros H ->. exact H. Qed.
Lemma runs_strings f args t m r : runs_to I T f args (strings_of t m) -> m = Done r -> runs_to I T f args (Done (VVec t r)).
Proof. intros H ->. exact H. Qed.

Lemma r_trim t P s : string_type t P -> Forall P s -> holds s ->
  exists r, leaves I T "trim" [VS t s] (Done (VS t r)) /\ trimmed (fun c => c = 0x20) s r.
Proof.
  intros Ht Hs Hz. destruct (trim_trims s) as (r & E & Hr). exists r. split; [|exact Hr].
  destruct (all_trim I T) as (A & B & C & _). eapply leaves_done; [|exact E]. destruct Ht; auto.
Qed.
Lemma r_trim_set t P s sp : string_type t P -> Forall P s -> holds s -> holds sp ->
  exists r, leaves I T "trim" [VS t s; VS t sp] (Done (VS t r)) /\ trimmed (fun c => In c sp) s r.
Proof.
  intros Ht Hs Hz Hp. destruct (trim_set_trims s sp) as (r & E & Hr). exists r. split; [|exact Hr].
  destruct (all_trim I T) as (_ & _ & _ & A & B & C). eapply leaves_done; [|exact E]. destruct Ht; auto.
Qed.
Lemma r_trim_ascii s : Forall byte s -> holds s ->
  exists r, leaves I T "trimAscii7WhiteSpace" [VS Char s] (Done (VS Char r)) /\ trimmed ascii_blank s r.
Proof.
  intros Hs Hz. destruct (trim_ascii_trims s) as (r & E & Hr). exists r. split; [|exact Hr].
  eapply leaves_done; [|exact E]. now apply (all_trims I T).
Qed.
Lemma r_trim_white t P s : string_type t P -> t <> Char -> Forall P s -> holds s ->
  exists r, leaves I T "trimWhiteSpace" [VS t s] (Done (VS t r)) /\ trimmed wide_blank s r.
Proof.
  intros Ht Hn Hs Hz. destruct (trim_wide_trims s) as (r & E & E' & Hr). exists r. split; [|exact Hr].
  destruct (all_trims I T) as (_ & A & B & _).
  destruct Ht; [contradiction | exact (leaves_done _ _ _ _ _ (B s Hs Hz) E') | exact (leaves_done _ _ _ _ _ (A s Hs Hz) E)].
Qed.
Lemma r_trim_white_8 bs : text8 bs -> holds bs ->
  (forall cs, reads_as cs bs -> Forall upto cs -> exists r, trimmed wide_blank cs r /\
     leaves I T "trimWhiteSpace" [VS Char bs] (Done (VS Char (flat_map utf8_bytes r)))) /\
  ((forall cs, reads_as cs bs -> ~ Forall upto cs) -> leaves I T "trimWhiteSpace" [VS Char bs] (Done (VS Char []))).
Proof.
  intros Ht Hz. destruct (all_trims I T) as (_ & _ & _ & A). specialize (A bs (text8_bytes bs Ht) Hz). split.
  - intros cs Hr Hu. destruct (trim_utf8 cs bs Ht Hr Hu) as (r & E & E'). exists r. split.
    + destruct (trim_wide_trims cs) as (r' & E1 & _ & H). rewrite E in E1. injection E1 as <-. exact H.
    + exact (leaves_done _ _ _ _ _ A E').
  - intros H. exact (leaves_done _ _ _ _ _ A (trim_utf8_bad bs Ht H)).
Qed.

Lemma r_split t P s d : string_type t P -> P d -> holds s -> s <> [] -> occurrences d s < 0x80000000 ->
  exists v, runs_to I T "split" [VS t s; VI t (norm I t d)] (Done (VVec t v)) /\ cut_at d s v.
Proof.
  intros Ht Hd Hz Hn Ho. destruct (split_cuts s d Hn Ho) as (v & E & Hv & _). exists v. split; [|exact Hv].
  destruct (all_split I T) as (A & B & C). eapply runs_strings; [|exact E]. destruct Ht; auto.
Qed.
Lemma r_split_empty t P d : string_type t P -> P d ->
  runs_to I T "split" [VS t []; VI t (norm I t d)] (Done (VVec t [])).
Proof.
  intros Ht Hd. destruct (all_split I T) as (A & B & C). eapply runs_strings; [|exact (split_empty d)].
  destruct Ht; [apply A | apply B | apply C]; try exact Hd; reflexivity.
Qed.
Lemma r_split_overflow t P s d : string_type t P -> P d -> holds s -> 0x80000000 <= occurrences d s ->
  runs_to I T "split" [VS t s; VI t (norm I t d)] Undefined.
Proof.
  intros Ht Hd Hz Ho. destruct (all_split I T) as (A & B & C). pose proof (split_overflow s d Ho) as E.
  replace Undefined with (strings_of t (split s d)) by now rewrite E. destruct Ht; auto.
Qed.
Lemma r_join t P ss d : string_type t P -> P d ->
  (d <> 0 -> runs_to I T "join" [VVec t ss; VI t (norm I t d)] (Done (VS t (glue d ss)))) /\
  (d = 0 -> runs_to I T "join" [VVec t ss; VI t (norm I t d)] (Done (VS t (List.concat ss)))).
Proof.
  intros Ht Hd. destruct (all_join I T) as (A & B & C). split.
  - intros Hn. destruct (join_glues ss d Hn) as (r & E & -> & _). eapply runs_done; [|exact E]. destruct Ht; auto.
  - intros ->. eapply runs_done; [|exact (join_zero ss)]. destruct Ht; auto.
Qed.

Lemma r_pages bs : text8 bs ->
  call_converts I T "toUtf8" [VP Char (PAt (bs ++ [0]) 0); VI Enum kSrcCP1252] Char (stand_for page1252 bs) (flat_map utf8_bytes) /\
  call_converts I T "toUtf8" [VP Char (PAt (bs ++ [0]) 0); VI Enum kSrcCP1250] Char (stand_for page1250 bs) (flat_map utf8_bytes) /\
  runs_to I T "toUtf8" [VP Char (PAt (bs ++ [0]) 0); VI Enum kSrcUnicode] (Done (VS Char bs)) /\
  (forall n, int32 n -> n <> kSrcUnicode -> n <> kSrcCP1252 -> n <> kSrcCP1250 ->
     runs_to I T "toUtf8" [VP Char (PAt (bs ++ [0]) 0); VI Enum n] (Done (VS Char []))).
Proof.
  intros Ht.
  assert (A : forall n, int32 n ->
    runs_to I T "toUtf8" [VP Char (PAt (bs ++ [0]) 0); VI Enum n] (string_of Char (toUtf8_cp (At (bs ++ [0])) n))).
  { intros n Hn. pose proof (a_page I T (bs ++ [0]) (At (bs ++ [0])) n) as H. cbn [vptr] in H. unfold into in H.
    rewrite Z.sub_diag in H. apply H; [|exact Hn]. split; [now exists []|]. apply Forall_app. split; [exact (text8_bytes bs Ht)|].
    constructor; [split; [lia|reflexivity]|constructor]. }
  split; [|split; [|split]].
  - apply (converts _ _ _ _ _ _ _ _ (A kSrcCP1252 ltac:(vm_compute; split; congruence))). exact (toUtf8_cp1252_exact bs [] Ht).
  - apply (converts _ _ _ _ _ _ _ _ (A kSrcCP1250 ltac:(vm_compute; split; congruence))). exact (toUtf8_cp1250_exact bs [] Ht).
  - exact (runs_done _ _ _ _ _ (A kSrcUnicode ltac:(vm_compute; split; congruence)) (toUtf8_cp_unicode bs [] Ht)).
  - intros n Hn H1 H2 H3. exact (runs_done _ _ _ _ _ (A n Hn) (toUtf8_cp_other bs [] n Ht H1 H2 H3)).
Qed.
Lemma r_trims :
  (forall t P s, string_type t P -> Forall P s -> holds s ->
     exists r, leaves I T "trim" [VS t s] (Done (VS t r)) /\ trimmed (fun c => c = 0x20) s r) /\
  (forall t P s sp, string_type t P -> Forall P s -> holds s -> holds sp ->
     exists r, leaves I T "trim" [VS t s; VS t sp] (Done (VS t r)) /\ trimmed (fun c => In c sp) s r) /\
  (forall s, Forall byte s -> holds s ->
     exists r, leaves I T "trimAscii7WhiteSpace" [VS Char s] (Done (VS Char r)) /\ trimmed ascii_blank s r) /\
  (forall t P s, string_type t P -> t <> Char -> Forall P s -> holds s ->
     exists r, leaves I T "trimWhiteSpace" [VS t s] (Done (VS t r)) /\ trimmed wide_blank s r) /\
  (forall bs, text8 bs -> holds bs ->
     (forall cs, reads_as cs bs -> Forall upto cs -> exists r, trimmed wide_blank cs r /\
        leaves I T "trimWhiteSpace" [VS Char bs] (Done (VS Char (flat_map utf8_bytes r)))) /\
     ((forall cs, reads_as cs bs -> ~ Forall upto cs) -> leaves I T "trimWhiteSpace" [VS Char bs] (Done (VS Char [])))).
Proof. parts; [exact r_trim | exact r_trim_set | exact r_trim_ascii | exact r_trim_white | exact r_trim_white_8]. Qed.
Lemma r_splits :
  (forall t P s d, string_type t P -> P d -> holds s -> s <> [] -> occurrences d s < 0x80000000 ->
     exists v, runs_to I T "split" [VS t s; VI t (norm I t d)] (Done (VVec t v)) /\ cut_at d s v) /\
  (forall t P d, string_type t P -> P d ->
     runs_to I T "split" [VS t []; VI t (norm I t d)] (Done (VVec t []))) /\
  (forall t P s d, string_type t P -> P d -> holds s -> 0x80000000 <= occurrences d s ->
     runs_to I T "split" [VS t s; VI t (norm I t d)] Undefined).
Proof. parts; [exact r_split | exact r_split_empty | exact r_split_overflow]. Qed.
End Rest.

Lemma reads_units cs bs : reads_as cs bs -> Forall unit32 cs.
Proof.
  intros (body & tail & _ & H & _). induction H as [|c s cs bs0 Hc H IH]; constructor; [|exact IH].
  destruct Hc as [c He|c He]; unfold encodable8, unit32 in *; lia.
Qed.
Lemma reads16_units cs us : reads_as16 cs us -> Forall unit32 cs.
Proof. intros H. apply Consequences.reads16_scalars in H. revert H. apply Forall_impl. intros c H. unfold scalar, unit32 in *. lia. Qed.

Lemma r_lower I v :
  (forall s, Forall unit32 s -> exists r, runs_to I (tables v) "toLower" [VS Char32 s] (Done (VS Char32 r)) /\
     Forall2 (fun c d => (lowers_to v c d <-> ~ departs v c) /\
       (in_ranges (lower_missing v) c -> d = c) /\ (forall d', In (c, d') (lower_extra v) -> d = d')) s r) /\
  (forall bs cs, text8 bs -> reads_as cs bs -> exists low,
     runs_to I (tables v) "toLower" [VS Char32 cs] (Done (VS Char32 low)) /\
     runs_to I (tables v) "toLower" [VS Char bs] (Done (VS Char (flat_map utf8_bytes low)))) /\
  (forall bs, text8 bs -> (forall cs, ~ reads_as cs bs) -> runs_to I (tables v) "toLower" [VS Char bs] (Done (VS Char []))) /\
  (forall us cs, text16 us -> reads_as16 cs us -> exists low,
     runs_to I (tables v) "toLower" [VS Char32 cs] (Done (VS Char32 low)) /\
     runs_to I (tables v) "toLower" [VS Char16 us] (Done (VS Char16 (flat_map utf16_units low)))) /\
  (forall us, text16 us -> (forall cs, ~ reads_as16 cs us) -> runs_to I (tables v) "toLower" [VS Char16 us] (Done (VS Char16 []))).
Proof.
  destruct (all_lower I (tables v) (tables_units v)) as (_ & _ & _ & A & B & C).
  assert (L : language Null) by now left.
  split; [|split; [|split; [|split]]].
  - intros s Hs. destruct (lower_data v s Hs) as (r & E & H). exists r. split; [|exact H]. exact (runs_done _ _ _ _ _ _ _ (C s Hs) E).
  - intros bs cs Ht Hr. destruct (lower_8 v Null bs cs L Ht Hr) as (low & E & E' & _). exists low. split.
    + apply (runs_done _ _ _ _ _ _ _ (C cs (reads_units _ _ Hr)) E).
    + exact (runs_done _ _ _ _ _ _ _ (A bs (text8_bytes bs Ht)) E').
  - intros bs Ht H. exact (runs_done _ _ _ _ _ _ _ (A bs (text8_bytes bs Ht)) (lower_8_bad _ _ bs Ht H)).
  - intros us cs Ht Hr. destruct (lower_16 v Null us cs L Ht Hr) as (low & E & E' & _). exists low. split.
    + apply (runs_done _ _ _ _ _ _ _ (C cs (reads16_units _ _ Hr)) E).
    + exact (runs_done _ _ _ _ _ _ _ (B us (text16_units us Ht)) E').
  - intros us Ht H. exact (runs_done _ _ _ _ _ _ _ (B us (text16_units us Ht)) (lower_16_bad _ _ us Ht H)).
Qed.

Lemma r_signedness T bs : Forall byte bs -> holds bs -> units_to_units T ->
  (exists r, forall b c, runs_to (machine b c) T "toLower" [VS Char bs] r) /\
  (forall f, In f ["trim"; "trimAscii7WhiteSpace"; "trimWhiteSpace"] -> exists r, forall b c, leaves (machine b c) T f [VS Char bs] r) /\
  (forall x, byte x -> exists r, forall b c, runs_to (machine b c) T "split" [VS Char bs; VI Char (norm (machine b c) Char x)] r) /\
  (forall n, int32 n -> exists r, forall b c, runs_to (machine b c) T "toUtf8" [vptr Char (bs ++ [0]) (At (bs ++ [0])); VI Enum n] r).
Proof.
  intros Hs Hz HT. split; [|split; [|split]].
  - eexists. intros b c. destruct (all_lower (machine b c) T HT) as (_ & _ & _ & A & _). now apply A.
  - intros f [<-|[<-|[<-|[]]]]; eexists; intros b c.
    + destruct (all_trim (machine b c) T) as (A & _). now apply A.
    + destruct (all_trims (machine b c) T) as (A & _). now apply A.
    + destruct (all_trims (machine b c) T) as (_ & _ & _ & A). now apply A.
  - intros x Hx. eexists. intros b c. destruct (all_split (machine b c) T) as (A & _). now apply A.
  - intros n Hn. eexists. intros b c. apply a_page; [|exact Hn]. split; [now exists []|]. apply Forall_app. split; [exact Hs|].
    constructor; [split; [lia|reflexivity]|constructor].
Qed.

Lemma tables_bytes v c : t_assigned8 (tables v) c = true /\ t_private8 (tables v) c = false.
Proof. destruct v; split; reflexivity. Qed.

Lemma case_rest : string_type Char byte /\ text8 [0x20; 0xC3; 0x89] /\ reads_as [0x20; 0xC9] [0x20; 0xC3; 0x89] /\ Forall upto [0x20; 0xC9] /\
  trimmed wide_blank [0x20; 0xC9] [0xC9] /\ cut_at 0x20 [0x20; 0xC3; 0x89] [[]; [0xC3; 0x89]] /\ occurrences 0x20 [0x20; 0xC3; 0x89] = 1 /\
  stand_for page1252 [0x20; 0x80] [0x20; 0x20AC].
Proof.
  split; [exact of_char|]. split; [repeat constructor; discriminate|].
  split. { exists [0x20; 0xC3; 0x89], []. split; [reflexivity|]. split; [|now left].
    apply (text_cons 0x20 [0x20] [0xC9] [0xC3; 0x89]); [apply (seq_plain 0x20); unfold encodable8, surrogate; lia|].
    apply (text_cons 0xC9 [0xC3; 0x89] [] []); [apply (seq_plain 0xC9); unfold encodable8, surrogate; lia|constructor]. }
  split; [repeat constructor; discriminate|].
  split. { exists [0x20], []. split; [reflexivity|]. split; [constructor; [left; unfold ascii_blank; cbn; auto|constructor]|].
    split; [constructor|]. right. split; [exists 0xC9, [] | exists [], 0xC9]; (split; [reflexivity|]); unfold wide_blank, ascii_blank; cbn; lia. }
  split. { split; [discriminate|]. split; [|reflexivity]. repeat constructor; cbn; lia. }
  split; [reflexivity|].
  constructor; [|constructor; [|constructor]]; apply (look_sound page1252); reflexivity.
Qed.
