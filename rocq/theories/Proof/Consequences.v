(* Consequences of exactness: valid outputs, guarantees of the is-functions, nesting of targets,
   predicates, concatenation, ASCII. *)
From Coq Require Import ZArith List Bool Lia ZifyBool.
From Verif Require Import Machine.
From Verif.Model Require Import Internal Decode Tables Predicate Str.
From Verif.Spec Require Import Utf Target Result.
From Verif.Proof Require Import Bits Encode DecodeFacts TextFacts ToFuncs IsFuncs Lenient LengthFuncs Round.
Import ListNotations.
Local Open Scope Z_scope.

Lemma answers_true {r P} : answers (Done (A := bool)) r P -> P -> r = Done true.
Proof. intros (b & -> & Hb) HP. f_equal. tauto. Qed.
Lemma answers_true_inv {r P} : answers (Done (A := bool)) r P -> r = Done true -> P.
Proof. intros (b & -> & Hb) E. injection E as ->. tauto. Qed.
Lemma answers_false {r P} : answers (Done (A := bool)) r P -> ~ P -> r = Done false.
Proof. intros (b & -> & Hb) HP. f_equal. destruct b; [tauto|reflexivity]. Qed.
Lemma answers_eq {r r' P P'} : answers (Done (A := bool)) r P -> answers (Done (A := bool)) r' P' -> (P <-> P') -> r = r'.
Proof. intros (b & -> & Hb) (b' & -> & Hb') H. f_equal. apply eq_true_iff_eq. tauto. Qed.

Lemma pred32_null T c : pred32 T nullPredicate c = true.
Proof. reflexivity. Qed.
Lemma pred16_null T c : pred16 T nullPredicate c = true.
Proof. reflexivity. Qed.

(* with the no-check predicate *)
Lemma isUtf8_null_exact T bs junk t : text8 bs ->
  answers Done (isUtf8 T (At (bs ++ 0 :: junk)) (code t) nullPredicate)
    (acceptable8 (range_isUtf8 t) (possible_lead t) bs).
Proof.
  intros H. destruct (isUtf8_exact T bs junk t nullPredicate H) as (b & E & Hb). exists b. split; [exact E|].
  rewrite Hb. split; intros (cs & body & tail & H1 & H2 & H3 & H4); exists cs, body, tail; repeat split; auto;
    eapply Forall_impl; [| eassumption| |eassumption]; cbn; tauto.
Qed.
Lemma isUtf16_null_exact T us junk t : text16 us ->
  answers Done (isUtf16 T (At (us ++ 0 :: junk)) (code t) nullPredicate)
    (acceptable16 (documented t) (supplementary_target t) us).
Proof.
  intros H. destruct (isUtf16_exact T us junk t nullPredicate H) as (b & E & Hb). exists b. split; [exact E|].
  rewrite Hb. split; intros (cs & body & tail & H1 & H2 & H3 & H4); exists cs, body, tail;
    (repeat split; [assumption|apply H2|apply H2| |assumption]);
    eapply Forall_impl; [| eassumption| |eassumption]; unfold ok16; cbn; tauto.
Qed.
Lemma isUcs2_null_exact T us junk t : text16 us ->
  answers Done (isUcs2 T (At (us ++ 0 :: junk)) (code t) nullPredicate)
    (Forall (fun c => bmp c /\ documented t c) us).
Proof.
  intros H. destruct (isUcs2_exact T us junk t nullPredicate H) as (b & E & Hb). exists b. split; [exact E|].
  rewrite Hb. split; apply Forall_impl; cbn; tauto.
Qed.
Lemma isUcs4_null_exact T us junk t : text32 us ->
  answers Done (isUcs4 T (At (us ++ 0 :: junk)) (code t) nullPredicate) (Forall (range_isUcs4 t) us).
Proof.
  intros H. destruct (isUcs4_exact T us junk t nullPredicate H) as (b & E & Hb). exists b. split; [exact E|].
  rewrite Hb. split; apply Forall_impl; cbn; tauto.
Qed.

(* ---------------------------------------------------------------- tails that can be completed *)

Lemma app_prefix_cases {A} (t rest s : list A) : s = t ++ rest -> rest <> [] -> t <> [] ->
  exists n, (0 < n < length s)%nat /\ t = firstn n s.
Proof.
  intros -> Hr Ht. exists (length t). rewrite app_length. split.
  - destruct rest; [congruence|]. destruct t; [congruence|]. cbn. lia.
  - rewrite firstn_app, Nat.sub_diag, firstn_all. cbn. now rewrite app_nil_r.
Qed.

Lemma shape_lead c s : shape c s -> (1 < length s)%nat ->
  exists b n conts, s = b :: conts /\ lead b n /\ 1 + Z.of_nat (length conts) = n /\ Forall continuation conts.
Proof.
  intros H Hn. inversion H; subst s; cbn [length] in Hn; try lia;
    match goal with |- exists b n conts, ?b0 :: ?l = _ /\ _ =>
      exists b0, (1 + Z.of_nat (length l)), l; unfold lead, continuation; cbn [length]; repeat split; try lia end;
    repeat constructor; lia.
Qed.

Lemma Forall_firstn {A} (P : A -> Prop) n l : Forall P l -> Forall P (firstn n l).
Proof. intros H. revert n. induction H; intros [|n]; cbn; constructor; auto. Qed.

Lemma completable_cut c s t rest : utf8_seq c s -> s = t ++ rest -> rest <> [] -> t <> [] -> cut_short t.
Proof.
  intros Hs E Hr Ht. destruct (app_prefix_cases _ _ _ E Hr Ht) as (n & Hn & ->).
  clear E Hr Ht. destruct Hs as [c [Hc Hns]|c Hc].
  - pose proof (utf8_bytes_shape c ltac:(lia)) as Sh.
    destruct (shape_lead _ _ Sh ltac:(lia)) as (b & k & conts & E & Hl & Hk & Hf). rewrite E in *.
    destruct n as [|n]; [lia|]. cbn [firstn length] in *. apply (cut_plain b k); [assumption| |].
    + rewrite firstn_length. lia.
    + now apply Forall_firstn.
  - destruct (utf16_units_supp c Hc) as (h & l & E & Hh & Hl & _). rewrite E in *. cbn [flat_map] in *.
    unfold high_surrogate, low_surrogate in *.
    destruct (surrogate_shape h _ ltac:(unfold surrogate; lia) (utf8_bytes_shape h ltac:(lia))) as (a & b & E1 & Ha & Hb & Eh).
    destruct (surrogate_shape l _ ltac:(unfold surrogate; lia) (utf8_bytes_shape l ltac:(lia))) as (a' & b' & E2 & Ha' & Hb' & El).
    rewrite E1, E2 in *. cbn [app length] in *. assert (0xA0 <= a <= 0xAF) by lia.
    destruct n as [|[|[|[|[|[|n]]]]]]; try lia; cbn [firstn].
    + apply (cut_plain 0xED 3); [unfold lead; lia|cbn; lia|constructor].
    + apply (cut_plain 0xED 3); [unfold lead; lia|cbn; lia|repeat constructor; unfold continuation; lia].
    + apply cut_pair0; [assumption|unfold continuation; lia].
    + apply cut_pair1; [assumption|unfold continuation; lia|unfold lead; lia|cbn; lia|constructor].
    + apply cut_pair1; [assumption|unfold continuation; lia|unfold lead; lia|cbn; lia|repeat constructor; unfold continuation; lia].
Qed.

Lemma documented_isUtf8 t c : documented t c -> range_isUtf8 t c.
Proof. destruct t; cbn; unfold scalar; unfold surrogate; lia || tauto. Qed.
Lemma documented_isUcs4 t c : documented t c -> range_isUcs4 t c.
Proof. destruct t; cbn; unfold scalar; unfold surrogate; lia || tauto. Qed.

Lemma completable_lead t tail : completable_in (documented t) tail -> cut_short tail /\ possible_lead t (hd 0 tail).
Proof.
  intros (Hne & c & s & rest & Hs & Hd & E & Hr). split; [eapply completable_cut; eassumption|].
  assert (Hhd : hd 0 tail = hd 0 s) by (rewrite E; destruct tail; [congruence|reflexivity]).
  rewrite Hhd. pose proof (lead_of_seq _ _ Hs) as Hl. pose proof (seq_range _ _ Hs) as [Hrg _].
  unfold documented, bmp, scalar in Hd. destruct t; cbn [possible_lead]; lia.
Qed.

(* everything the documentation promises is accepted *)
Lemma documented8_accepted t bs : documented8 t bs -> acceptable8 (range_isUtf8 t) (possible_lead t) bs.
Proof.
  intros (cs & body & tail & -> & Hb & Hf & Ht). exists cs, body, tail. repeat split; auto.
  - eapply Forall_impl; [|exact Hf]. apply documented_isUtf8.
  - destruct Ht as [->|Ht]; [now left|right]. now apply completable_lead.
Qed.

(* without a cut-short tail and away from kUtf16 nothing else is *)
Lemma accepted_documented8 t cs bs : t <> Utf16 -> utf8_text cs bs ->
  acceptable8 (range_isUtf8 t) (possible_lead t) bs <-> Forall (documented t) cs.
Proof.
  intros Ht Hb. split.
  - intros (cs' & body & tail & -> & Hb' & Hf & Htl).
    assert (Hr : reads_as cs' (body ++ tail)) by (exists body, tail; tauto).
    rewrite <- (reads_as_unique _ _ _ Hr (reads_as_text _ _ Hb)).
    eapply Forall_impl; [|exact Hf]. intros c. destruct t; cbn; tauto.
  - intros Hf. exists cs, bs, []. rewrite app_nil_r. repeat split; auto.
    eapply Forall_impl; [|exact Hf]. apply documented_isUtf8.
Qed.

(* ---------------------------------------------------------------- outputs are valid *)

Lemma isUtf8_true T cs bs t : utf8_text cs bs -> Forall (range_isUtf8 t) cs -> text8 bs ->
  isUtf8_string T bs (code t) nullPredicate = Done true.
Proof.
  intros Hb Hf Ht. apply (answers_true (isUtf8_null_exact T bs [] t Ht)).
  exists cs, bs, []. rewrite app_nil_r. auto.
Qed.
Lemma isUtf8_true_flat T cs : Forall encodable8 cs -> isUtf8_string T (flat_map utf8_bytes cs) kUtf8 nullPredicate = Done true.
Proof.
  intros H. apply (isUtf8_true T cs _ Utf8); [now apply utf8_text_flat|exact H|now apply text8_flat].
Qed.
Lemma isUtf16_true_flat T cs : Forall scalar cs -> isUtf16_string T (flat_map utf16_units cs) kUtf16 nullPredicate = Done true.
Proof.
  intros H. apply (answers_true (isUtf16_null_exact T _ [] Utf16 (text16_flat _ H))).
  exists cs, (flat_map utf16_units cs), []. rewrite app_nil_r. repeat split; auto.
Qed.
Lemma isUcs2_true T cs : Forall bmp cs -> isUcs2_string T cs kUcs2 nullPredicate = Done true.
Proof.
  intros H. assert (Ht : text16 cs) by (eapply Forall_impl; [|exact H]; unfold bmp; lia).
  apply (answers_true (isUcs2_null_exact T _ [] Ucs2 Ht)). eapply Forall_impl; [|exact H]. cbn. tauto.
Qed.
Lemma isUcs4_true T cs : Forall encodable8 cs -> isUcs4_string T cs kUcs4 nullPredicate = Done true.
Proof.
  intros H. apply (answers_true (isUcs4_null_exact T _ [] Ucs4 (encodable8_text32 _ H))).
  eapply Forall_impl; [|exact H]. unfold encodable8. cbn. unfold surrogate. lia.
Qed.

Lemma encodable_bmp cs : Forall encodable8 cs -> Forall (fun c => c <= 0xFFFF) cs -> Forall bmp cs.
Proof.
  induction 1 as [|c cs Hc Hcs IH]; intros H; constructor; apply Forall_cons_inv in H; [|tauto].
  unfold encodable8, bmp, surrogate in *. lia.
Qed.


Lemma output_toUtf8_32 T us : text32 us -> valid_output toUtf8_32 (fun r => isUtf8_string T r kUtf8 nullPredicate) us.
Proof.
  intros H. destruct (toUtf8_32_total us H) as [[HF Hr]|[_ Hr]]; eexists; (split; [exact Hr|]).
  - now apply isUtf8_true_flat.
  - reflexivity.
Qed.
Lemma output_toUtf16_32 T us : text32 us -> valid_output toUtf16_32 (fun r => isUtf16_string T r kUtf16 nullPredicate) us.
Proof.
  intros H. destruct (toUtf16_32_total us H) as [[HF Hr]|[_ Hr]]; eexists; (split; [exact Hr|]).
  - now apply isUtf16_true_flat.
  - reflexivity.
Qed.
Lemma output_toUcs2_32 T us : text32 us -> valid_output toUcs2_32 (fun r => isUcs2_string T r kUcs2 nullPredicate) us.
Proof.
  intros H. destruct (toUcs2_32_total us H) as [[HF Hr]|[_ Hr]]; eexists; (split; [exact Hr|]).
  - now apply isUcs2_true.
  - reflexivity.
Qed.
Lemma output_toUcs4_8 T bs : text8 bs -> valid_output toUcs4_8 (fun r => isUcs4_string T r kUcs4 nullPredicate) bs.
Proof.
  intros H. destruct (toUcs4_8_total bs H) as [(cs & HF & Hr)|[_ Hr]]; eexists; (split; [exact Hr|]).
  - apply isUcs4_true. eapply reads_as_range, HF.
  - reflexivity.
Qed.
Lemma output_toUtf16_8 T bs : text8 bs -> valid_output toUtf16_8 (fun r => isUtf16_string T r kUtf16 nullPredicate) bs.
Proof.
  intros H. destruct (toUtf16_8_total bs H) as [(cs & [HF Hu] & Hr)|[_ Hr]]; eexists; (split; [exact Hr|]).
  - apply isUtf16_true_flat. apply encodable_upto_scalar; [eapply reads_as_range, HF|exact Hu].
  - reflexivity.
Qed.
Lemma output_toUcs2_8 T bs : text8 bs -> valid_output toUcs2_8 (fun r => isUcs2_string T r kUcs2 nullPredicate) bs.
Proof.
  intros H. destruct (toUcs2_8_total bs H) as [(cs & [HF Hu] & Hr)|[_ Hr]]; eexists; (split; [exact Hr|]).
  - apply isUcs2_true. apply encodable_bmp; [eapply reads_as_range, HF|exact Hu].
  - reflexivity.
Qed.
Lemma reads16_scalars cs us : reads_as16 cs us -> Forall scalar cs.
Proof. intros (b & t & _ & [H _] & _). exact H. Qed.
Lemma output_toUcs4_16 T us : text16 us -> valid_output toUcs4_16 (fun r => isUcs4_string T r kUcs4 nullPredicate) us.
Proof.
  intros H. destruct (toUcs4_16_total us H) as [(cs & HF & Hr)|[_ Hr]]; eexists; (split; [exact Hr|]).
  - apply isUcs4_true. eapply scalars_encodable8, reads16_scalars, HF.
  - reflexivity.
Qed.
(* toUtf8(const char16_t* ) has valid output on inputs without stray low surrogates *)
Lemma output_toUtf8_16 T us cs : text16 us -> reads_as16 cs us -> valid_output toUtf8_16 (fun r => isUtf8_string T r kUtf8 nullPredicate) us.
Proof.
  intros H Hr. exists (flat_map utf8_bytes cs). split.
  - intros junk. apply (toUtf8_16_exact us junk H). now apply reads_lenient.
  - apply isUtf8_true_flat, scalars_encodable8. eapply reads16_scalars, Hr.
Qed.

(* ---------------------------------------------------------------- passing the check guarantees conversion *)

Lemma acceptable8_reads ok tl bs : acceptable8 ok tl bs -> exists cs, reads_as cs bs /\ Forall ok cs.
Proof.
  intros (cs & body & tail & -> & Hb & Hf & Ht). exists cs. split; [|assumption]. exists body, tail. tauto.
Qed.

Lemma guarantee_8_ucs4 T bs junk t : text8 bs -> isUtf8 T (At (bs ++ 0 :: junk)) (code t) nullPredicate = Done true ->
  exists cs, reads_as cs bs /\ Forall (range_isUtf8 t) cs /\ toUcs4_8 (At (bs ++ 0 :: junk)) = Done cs.
Proof.
  intros H E. apply (answers_true_inv (isUtf8_null_exact T bs junk t H)), acceptable8_reads in E.
  destruct E as (cs & Hr & Hf). exists cs. repeat split; auto. now apply (toUcs4_8_exact bs junk H).
Qed.
Lemma guarantee_8_utf16 T bs junk t : text8 bs -> (forall c, range_isUtf8 t c -> c <= 0x10FFFF) ->
  isUtf8 T (At (bs ++ 0 :: junk)) (code t) nullPredicate = Done true ->
  exists cs, reads_as cs bs /\ toUtf16_8 (At (bs ++ 0 :: junk)) = Done (flat_map utf16_units cs).
Proof.
  intros H Hb E. apply (answers_true_inv (isUtf8_null_exact T bs junk t H)), acceptable8_reads in E.
  destruct E as (cs & Hr & Hf). exists cs. split; [assumption|]. apply (toUtf16_8_exact bs junk H). split; [assumption|].
  eapply Forall_impl; [|exact Hf]. exact Hb.
Qed.
Lemma guarantee_8_ucs2 T bs junk t : text8 bs -> (forall c, range_isUtf8 t c -> c <= 0xFFFF) ->
  isUtf8 T (At (bs ++ 0 :: junk)) (code t) nullPredicate = Done true ->
  exists cs, reads_as cs bs /\ toUcs2_8 (At (bs ++ 0 :: junk)) = Done cs.
Proof.
  intros H Hb E. apply (answers_true_inv (isUtf8_null_exact T bs junk t H)), acceptable8_reads in E.
  destruct E as (cs & Hr & Hf). exists cs. split; [assumption|]. apply (toUcs2_8_exact bs junk H). split; [assumption|].
  eapply Forall_impl; [|exact Hf]. exact Hb.
Qed.
Lemma guarantee_16 T us junk t : text16 us -> isUtf16 T (At (us ++ 0 :: junk)) (code t) nullPredicate = Done true ->
  exists cs, reads_as16 cs us /\ Forall (documented t) cs /\ toUcs4_16 (At (us ++ 0 :: junk)) = Done cs /\
    toUtf8_16 (At (us ++ 0 :: junk)) = Done (flat_map utf8_bytes cs).
Proof.
  intros H E. apply (answers_true_inv (isUtf16_null_exact T us junk t H)), acc16_reads in E.
  destruct E as (cs & Hr & Hf). exists cs. repeat split; auto.
  - now apply (toUcs4_16_exact us junk H).
  - apply (toUtf8_16_exact us junk H). now apply reads_lenient.
Qed.
Lemma guarantee_ucs2 T us junk t : text16 us -> isUcs2 T (At (us ++ 0 :: junk)) (code t) nullPredicate = Done true ->
  toUcs4_16 (At (us ++ 0 :: junk)) = Done us /\ toUtf8_16 (At (us ++ 0 :: junk)) = Done (flat_map utf8_bytes us).
Proof.
  intros H E. apply (answers_true_inv (isUcs2_null_exact T us junk t H)) in E.
  assert (Hb : Forall bmp us) by (eapply Forall_impl; [|exact E]; cbn; tauto). clear E.
  assert (Hr : reads_as16 us us).
  { apply utf16_text_reads. split; [eapply Forall_impl; [|exact Hb]; apply bmp_scalar|].
    rewrite (flat_map_ext_in _ (fun c => [c])); [now rewrite flat_map_single|].
    intros c Hc. rewrite Forall_forall in Hb. apply utf16_units_bmp. specialize (Hb c Hc). unfold bmp in Hb. lia. }
  split.
  - now apply (toUcs4_16_exact us junk H).
  - apply (toUtf8_16_exact us junk H). now apply reads_lenient.
Qed.
Lemma guarantee_32_utf8 T us junk t : text32 us -> (forall c, range_isUcs4 t c -> encodable8 c) ->
  isUcs4 T (At (us ++ 0 :: junk)) (code t) nullPredicate = Done true ->
  toUtf8_32 (At (us ++ 0 :: junk)) = Done (flat_map utf8_bytes us).
Proof.
  intros H Hb E. apply (answers_true_inv (isUcs4_null_exact T us junk t H)) in E.
  apply (toUtf8_32_exact us junk H). eapply Forall_impl; [|exact E]. exact Hb.
Qed.
Lemma guarantee_32_utf16 T us junk t : text32 us -> (forall c, range_isUcs4 t c -> scalar c) ->
  isUcs4 T (At (us ++ 0 :: junk)) (code t) nullPredicate = Done true ->
  toUtf16_32 (At (us ++ 0 :: junk)) = Done (flat_map utf16_units us).
Proof.
  intros H Hb E. apply (answers_true_inv (isUcs4_null_exact T us junk t H)) in E.
  apply (toUtf16_32_exact us junk H). eapply Forall_impl; [|exact E]. exact Hb.
Qed.
Lemma guarantee_32_ucs2 T us junk t : text32 us -> (forall c, range_isUcs4 t c -> bmp c) ->
  isUcs4 T (At (us ++ 0 :: junk)) (code t) nullPredicate = Done true ->
  toUcs2_32 (At (us ++ 0 :: junk)) = Done us.
Proof.
  intros H Hb E. apply (answers_true_inv (isUcs4_null_exact T us junk t H)) in E.
  rewrite <- (flat_map_single us) at 2.
  apply (toUcs2_32_exact us junk H). eapply Forall_impl; [|exact E]. exact Hb.
Qed.

(* ---------------------------------------------------------------- targets nest *)


Lemma narrower_isUtf8 t t' : narrower t t' -> forall c, range_isUtf8 t c -> range_isUtf8 t' c.
Proof. induction 1; intros x; auto; cbn; unfold bmp, scalar, surrogate; lia. Qed.
Lemma narrower_isUcs4 t t' : narrower t t' -> forall c, range_isUcs4 t c -> range_isUcs4 t' c.
Proof. induction 1; intros x; auto; cbn; unfold bmp, scalar, surrogate; lia. Qed.
Lemma narrower_documented t t' : narrower t t' -> forall c, documented t c -> documented t' c.
Proof. induction 1; intros x; auto; cbn; unfold bmp, scalar, surrogate; lia. Qed.
Lemma narrower_lead t t' : narrower t t' -> forall b, possible_lead t b -> possible_lead t' b.
Proof. induction 1; intros x; auto; cbn; lia. Qed.
Lemma narrower_suppl t t' : narrower t t' -> supplementary_target t -> supplementary_target t'.
Proof. induction 1; auto; unfold supplementary_target; intros []; split; congruence. Qed.

Lemma acceptable8_mono (ok ok' tl tl' : Z -> Prop) bs : (forall c, ok c -> ok' c) -> (forall b, tl b -> tl' b) ->
  acceptable8 ok tl bs -> acceptable8 ok' tl' bs.
Proof.
  intros H1 H2 (cs & body & tail & -> & Hb & Hf & Ht). exists cs, body, tail. repeat split; auto.
  - eapply Forall_impl; [|exact Hf]. exact H1.
  - destruct Ht as [->|[Ht Hl]]; auto.
Qed.
Lemma acceptable16_mono (ok ok' : Z -> Prop) (tl tl' : Prop) us : (forall c, ok c -> ok' c) -> (tl -> tl') ->
  acceptable16 ok tl us -> acceptable16 ok' tl' us.
Proof.
  intros H1 H2 (cs & body & tail & -> & Hb & Hf & Ht). exists cs, body, tail.
  repeat split; [apply Hb|apply Hb| |].
  - eapply Forall_impl; [|exact Hf]. exact H1.
  - destruct Ht as [->|[Ht Hl]]; auto.
Qed.

Lemma nest_isUtf8 T bs junk t t' pred : text8 bs -> narrower t t' ->
  isUtf8 T (At (bs ++ 0 :: junk)) (code t) pred = Done true -> isUtf8 T (At (bs ++ 0 :: junk)) (code t') pred = Done true.
Proof.
  intros H Hn E. apply (answers_true (isUtf8_exact T bs junk t' pred H)).
  apply (answers_true_inv (isUtf8_exact T bs junk t pred H)) in E. revert E. apply acceptable8_mono.
  - intros c []. eauto using narrower_isUtf8.
  - now apply narrower_lead.
Qed.
Lemma nest_isUtf16 T us junk t t' pred : text16 us -> narrower t t' ->
  isUtf16 T (At (us ++ 0 :: junk)) (code t) pred = Done true -> isUtf16 T (At (us ++ 0 :: junk)) (code t') pred = Done true.
Proof.
  intros H Hn E. apply (answers_true (isUtf16_exact T us junk t' pred H)).
  apply (answers_true_inv (isUtf16_exact T us junk t pred H)) in E. revert E. apply acceptable16_mono.
  - intros c []. split; eauto using narrower_documented.
  - now apply narrower_suppl.
Qed.
Lemma nest_isUcs2 T us junk t t' pred : text16 us -> narrower t t' ->
  isUcs2 T (At (us ++ 0 :: junk)) (code t) pred = Done true -> isUcs2 T (At (us ++ 0 :: junk)) (code t') pred = Done true.
Proof.
  intros H Hn E. apply (answers_true (isUcs2_exact T us junk t' pred H)).
  apply (answers_true_inv (isUcs2_exact T us junk t pred H)) in E. revert E. apply Forall_impl.
  intros c (H1 & H2 & H3). eauto using narrower_documented.
Qed.
Lemma nest_isUcs4 T us junk t t' pred : text32 us -> narrower t t' ->
  isUcs4 T (At (us ++ 0 :: junk)) (code t) pred = Done true -> isUcs4 T (At (us ++ 0 :: junk)) (code t') pred = Done true.
Proof.
  intros H Hn E. apply (answers_true (isUcs4_exact T us junk t' pred H)).
  apply (answers_true_inv (isUcs4_exact T us junk t pred H)) in E. revert E. apply Forall_impl.
  intros c (H1 & H2). eauto using narrower_isUcs4.
Qed.

(* ---------------------------------------------------------------- predicates restrict code point by code point *)

Lemma acceptable8_and (ok P tl : Z -> Prop) bs :
  acceptable8 (fun c => ok c /\ P c) tl bs <-> acceptable8 ok tl bs /\ forall cs, reads_as cs bs -> Forall P cs.
Proof.
  split.
  - intros H. split; [revert H; apply acceptable8_mono; tauto|]. intros cs Hcs.
    apply acceptable8_reads in H. destruct H as (cs' & Hr & Hf). rewrite (reads_as_unique _ _ _ Hcs Hr).
    eapply Forall_impl; [|exact Hf]. cbn. tauto.
  - intros [(cs & body & tail & -> & Hb & Hf & Ht) HP]. exists cs, body, tail. repeat split; auto.
    assert (Hr : reads_as cs (body ++ tail)) by (exists body, tail; tauto). specialize (HP cs Hr).
    clear -Hf HP. induction Hf; constructor; apply Forall_cons_inv in HP; tauto.
Qed.
Lemma acceptable16_and (ok P : Z -> Prop) (tl : Prop) us : text16 us ->
  acceptable16 (fun c => ok c /\ P c) tl us <-> acceptable16 ok tl us /\ forall cs, reads_as16 cs us -> Forall P cs.
Proof.
  intros Hus. split.
  - intros H. split; [revert H; apply acceptable16_mono; tauto|]. intros cs Hcs.
    apply acc16_reads in H. destruct H as (cs' & Hr & Hf). rewrite (reads16_unique us cs cs' Hus Hcs Hr).
    eapply Forall_impl; [|exact Hf]. cbn. tauto.
  - intros [(cs & body & tail & -> & Hb & Hf & Ht) HP]. exists cs, body, tail. repeat split; [apply Hb|apply Hb| |assumption].
    assert (Hr : reads_as16 cs (body ++ tail)) by (exists body, tail; tauto). specialize (HP cs Hr).
    clear -Hf HP. induction Hf; constructor; apply Forall_cons_inv in HP; tauto.
Qed.

Lemma restrict_isUtf8 T bs junk t pred : text8 bs ->
  isUtf8 T (At (bs ++ 0 :: junk)) (code t) pred = Done true <->
  isUtf8 T (At (bs ++ 0 :: junk)) (code t) nullPredicate = Done true /\
  forall cs, reads_as cs bs -> Forall (fun c => pred32 T pred c = true) cs.
Proof.
  intros H. pose proof (isUtf8_exact T bs junk t pred H) as A. pose proof (isUtf8_null_exact T bs junk t H) as B.
  split.
  - intros E. apply (answers_true_inv A) in E. apply acceptable8_and in E. destruct E as [E HP].
    split; [|exact HP]. exact (answers_true B E).
  - intros [E HP]. apply (answers_true A). apply acceptable8_and. split; [|exact HP]. exact (answers_true_inv B E).
Qed.
Lemma restrict_isUtf16 T us junk t pred : text16 us ->
  isUtf16 T (At (us ++ 0 :: junk)) (code t) pred = Done true <->
  isUtf16 T (At (us ++ 0 :: junk)) (code t) nullPredicate = Done true /\
  forall cs, reads_as16 cs us -> Forall (fun c => pred16 T pred (hd 0 (utf16_units c)) = true) cs.
Proof.
  intros H. pose proof (isUtf16_exact T us junk t pred H) as A. pose proof (isUtf16_null_exact T us junk t H) as B.
  split.
  - intros E. apply (answers_true_inv A) in E. apply acceptable16_and in E; [|assumption]. destruct E as [E HP].
    split; [|exact HP]. exact (answers_true B E).
  - intros [E HP]. apply (answers_true A). apply acceptable16_and; [assumption|]. split; [|exact HP]. exact (answers_true_inv B E).
Qed.
Lemma Forall_and_iff {A} (P Q : A -> Prop) l : Forall (fun x => P x /\ Q x) l <-> Forall P l /\ Forall Q l.
Proof.
  split.
  - intros H. split; eapply Forall_impl; try exact H; cbn; tauto.
  - intros [H1 H2]. revert H2. induction H1; intros H2; constructor; apply Forall_cons_inv in H2; tauto.
Qed.
Lemma restrict_isUcs2 T us junk t pred : text16 us ->
  isUcs2 T (At (us ++ 0 :: junk)) (code t) pred = Done true <->
  isUcs2 T (At (us ++ 0 :: junk)) (code t) nullPredicate = Done true /\ Forall (fun c => pred16 T pred c = true) us.
Proof.
  intros H. pose proof (isUcs2_exact T us junk t pred H) as A. pose proof (isUcs2_null_exact T us junk t H) as B.
  split.
  - intros E. apply (answers_true_inv A) in E. split; [apply (answers_true B)|]; eapply Forall_impl; try exact E; cbn; tauto.
  - intros [E HP]. apply (answers_true A). apply (answers_true_inv B) in E.
    pose proof (proj2 (Forall_and_iff _ _ us) (conj E HP)) as HH. eapply Forall_impl; [|exact HH]. cbn. tauto.
Qed.
Lemma restrict_isUcs4 T us junk t pred : text32 us ->
  isUcs4 T (At (us ++ 0 :: junk)) (code t) pred = Done true <->
  isUcs4 T (At (us ++ 0 :: junk)) (code t) nullPredicate = Done true /\ Forall (fun c => pred32 T pred c = true) us.
Proof.
  intros H. pose proof (isUcs4_exact T us junk t pred H) as A. pose proof (isUcs4_null_exact T us junk t H) as B.
  split.
  - intros E. apply (answers_true_inv A) in E. split; [apply (answers_true B)|]; eapply Forall_impl; try exact E; cbn; tauto.
  - intros [E HP]. apply (answers_true A). apply (answers_true_inv B) in E.
    pose proof (proj2 (Forall_and_iff _ _ us) (conj E HP)) as HH. eapply Forall_impl; [|exact HH]. cbn. tauto.
Qed.

(* ---------------------------------------------------------------- concatenation *)

Lemma acceptable8_app (ok tl : Z -> Prop) cs a b : utf8_text cs a ->
  acceptable8 ok tl (a ++ b) <-> Forall ok cs /\ acceptable8 ok tl b.
Proof.
  intros Ha. split.
  - intros (cs' & body & tail & E & Hb & Hf & Ht). revert cs' body tail E Hb Hf Ht.
    induction Ha as [|c s cs a Hs Ha IH]; intros cs' body tail E Hb Hf Ht.
    + cbn [app] in E. split; [constructor|]. exists cs', body, tail. auto.
    + rewrite <- app_assoc in E. apply utf8_text_inv in Hb. destruct Hb as [[-> ->]|(c' & s' & cs1 & bs1 & -> & -> & Hs' & Hb1)].
      * exfalso. cbn [app] in E. destruct Ht as [->|[Ht _]].
        -- apply app_eq_nil in E. destruct E as [-> _]. now apply seq_ne in Hs.
        -- eapply cut_no_seq; [exact Ht|exact Hs|symmetry; exact E].
      * rewrite <- app_assoc in E. destruct (seq_unique _ _ _ _ _ _ Hs Hs' E) as (<- & <- & E1).
        apply Forall_cons_inv in Hf. destruct (IH cs1 bs1 tail E1 Hb1 (proj2 Hf) Ht) as [H1 H2].
        split; [constructor; tauto|assumption].
  - intros [Hcs (cs' & body & tail & -> & Hb & Hf & Ht)]. exists (cs ++ cs'), (a ++ body), tail.
    rewrite app_assoc. repeat split; auto.
    + now apply utf8_text_app.
    + apply Forall_app. auto.
Qed.

Lemma utf16_text_app cs1 us1 cs2 us2 : utf16_text cs1 us1 -> utf16_text cs2 us2 -> utf16_text (cs1 ++ cs2) (us1 ++ us2).
Proof. intros [H1 ->] [H2 ->]. split; [apply Forall_app; auto|]. now rewrite flat_map_app. Qed.
Lemma reads16_app cs1 us1 cs2 us2 : utf16_text cs1 us1 -> reads_as16 cs2 us2 -> reads_as16 (cs1 ++ cs2) (us1 ++ us2).
Proof.
  intros H1 (b & t & -> & Hb & Ht). exists (us1 ++ b), t. split; [apply app_assoc|].
  split; [now apply utf16_text_app|assumption].
Qed.
Lemma acceptable16_app (ok : Z -> Prop) (tl : Prop) cs a b : utf16_text cs a ->
  acceptable16 ok tl (a ++ b) <-> Forall ok cs /\ acceptable16 ok tl b.
Proof.
  intros [Hcs ->]. split.
  - induction Hcs as [|c cs Hc Hcs IH]; intros H; [split; [constructor|exact H]|].
    cbn [flat_map] in H. rewrite <- app_assoc in H.
    destruct (units_cases c Hc) as [[Hb E]|(h & l & E & Hh & Hl & ->)]; rewrite E in H; cbn [app] in H.
    + apply acc16_plain_inv in H; [|assumption]. destruct H as [H1 H2]. specialize (IH H2). split; [constructor; tauto|tauto].
    + apply acc16_pair_inv in H; [|assumption|assumption]. destruct H as [H1 H2]. specialize (IH H2). split; [constructor; tauto|tauto].
  - intros [Hok (cs' & body & tail & -> & Hb & Hf & Ht)]. exists (cs ++ cs'), (flat_map utf16_units cs ++ body), tail.
    rewrite app_assoc. split; [reflexivity|]. split; [apply utf16_text_app; [now split|assumption]|].
    split; [apply Forall_app; auto|assumption].
Qed.

Lemma acceptable8_whole (ok tl : Z -> Prop) cs a : utf8_text cs a -> acceptable8 ok tl a <-> Forall ok cs.
Proof.
  intros H. rewrite <- (app_nil_r a) at 1. rewrite (acceptable8_app ok tl cs a [] H). split; [tauto|].
  intros Hf. split; [assumption|]. exists [], [], []. repeat split; [constructor|constructor|now left].
Qed.
Lemma acceptable16_whole (ok : Z -> Prop) (tl : Prop) cs a : utf16_text cs a -> acceptable16 ok tl a <-> Forall ok cs.
Proof.
  intros H. rewrite <- (app_nil_r a) at 1. rewrite (acceptable16_app ok tl cs a [] H). split; [tauto|].
  intros Hf. split; [assumption|]. apply acc16_nil.
Qed.

Lemma conj_of_answers r r1 r2 P P1 P2 : answers (Done (A := bool)) r P -> answers (Done (A := bool)) r1 P1 ->
  answers (Done (A := bool)) r2 P2 -> (P <-> P1 /\ P2) -> conj_of r r1 r2.
Proof.
  intros (b & -> & Hb) (b1 & -> & Hb1) (b2 & -> & Hb2) H. exists b1, b2. repeat split. f_equal.
  apply eq_true_iff_eq. rewrite andb_true_iff. tauto.
Qed.

Lemma concat_isUtf8 T cs a b t pred : utf8_text cs a -> text8 b ->
  conj_of (isUtf8_string T (a ++ b) (code t) pred) (isUtf8_string T a (code t) pred) (isUtf8_string T b (code t) pred).
Proof.
  intros Ha Hb. pose proof (utf8_text_text8 _ _ Ha) as Ta.
  eapply conj_of_answers.
  - apply (isUtf8_exact T (a ++ b) []). now apply text8_app.
  - apply (isUtf8_exact T a []). assumption.
  - apply (isUtf8_exact T b []). assumption.
  - cbn beta. rewrite (acceptable8_app _ _ cs a b Ha), (acceptable8_whole _ _ cs a Ha). reflexivity.
Qed.
Lemma utf16_text_text16 cs us : utf16_text cs us -> text16 us.
Proof. intros [H ->]. now apply text16_flat. Qed.
Lemma concat_isUtf16 T cs a b t pred : utf16_text cs a -> text16 b ->
  conj_of (isUtf16_string T (a ++ b) (code t) pred) (isUtf16_string T a (code t) pred) (isUtf16_string T b (code t) pred).
Proof.
  intros Ha Hb. pose proof (utf16_text_text16 _ _ Ha) as Ta.
  eapply conj_of_answers.
  - apply (isUtf16_exact T (a ++ b) []). apply Forall_app. auto.
  - apply (isUtf16_exact T a []). assumption.
  - apply (isUtf16_exact T b []). assumption.
  - cbn beta. rewrite (acceptable16_app _ _ cs a b Ha), (acceptable16_whole _ _ cs a Ha). reflexivity.
Qed.
Lemma concat_isUcs2 T a b t pred : text16 a -> text16 b ->
  conj_of (isUcs2_string T (a ++ b) (code t) pred) (isUcs2_string T a (code t) pred) (isUcs2_string T b (code t) pred).
Proof.
  intros Ha Hb. eapply conj_of_answers.
  - apply (isUcs2_exact T (a ++ b) []). apply Forall_app. auto.
  - apply (isUcs2_exact T a []). assumption.
  - apply (isUcs2_exact T b []). assumption.
  - cbn beta. apply Forall_app.
Qed.
Lemma concat_isUcs4 T a b t pred : text32 a -> text32 b ->
  conj_of (isUcs4_string T (a ++ b) (code t) pred) (isUcs4_string T a (code t) pred) (isUcs4_string T b (code t) pred).
Proof.
  intros Ha Hb. eapply conj_of_answers.
  - apply (isUcs4_exact T (a ++ b) []). apply Forall_app. auto.
  - apply (isUcs4_exact T a []). assumption.
  - apply (isUcs4_exact T b []). assumption.
  - cbn beta. apply Forall_app.
Qed.

(* conversions of whole texts *)
Lemma concat_toUcs4_8 cs1 a cs2 b : utf8_text cs1 a -> text8 b -> reads_as cs2 b ->
  toUcs4_8_string (a ++ b) = Done (cs1 ++ cs2) /\ toUcs4_8_string a = Done cs1 /\ toUcs4_8_string b = Done cs2.
Proof.
  intros Ha Tb Hb. pose proof (utf8_text_text8 _ _ Ha) as Ta. repeat split.
  - apply (toUcs4_8_exact (a ++ b) []); [now apply text8_app|]. now apply reads_as_app.
  - apply (toUcs4_8_exact a []); [assumption|]. now apply reads_as_text.
  - now apply (toUcs4_8_exact b []).
Qed.
Lemma concat_toUtf16_8 cs1 a cs2 b : utf8_text cs1 a -> text8 b -> reads_as cs2 b -> Forall scalar cs1 -> Forall scalar cs2 ->
  exists r1 r2, toUtf16_8_string a = Done r1 /\ toUtf16_8_string b = Done r2 /\ toUtf16_8_string (a ++ b) = Done (r1 ++ r2).
Proof.
  intros Ha Tb Hb H1 H2. pose proof (utf8_text_text8 _ _ Ha) as Ta.
  exists (flat_map utf16_units cs1), (flat_map utf16_units cs2). rewrite <- flat_map_app. repeat split.
  - apply (toUtf16_8_exact a []); [assumption|]. split; [now apply reads_as_text|now apply scalars_upto].
  - apply (toUtf16_8_exact b []); [assumption|]. split; [assumption|now apply scalars_upto].
  - apply (toUtf16_8_exact (a ++ b) []); [now apply text8_app|]. split; [now apply reads_as_app|].
    apply Forall_app. split; now apply scalars_upto.
Qed.
Lemma bmps_upto cs : Forall bmp cs -> Forall (fun c => c <= 0xFFFF) cs.
Proof. apply Forall_impl. unfold bmp. lia. Qed.
Lemma concat_toUcs2_8 cs1 a cs2 b : utf8_text cs1 a -> text8 b -> reads_as cs2 b -> Forall bmp cs1 -> Forall bmp cs2 ->
  exists r1 r2, toUcs2_8_string a = Done r1 /\ toUcs2_8_string b = Done r2 /\ toUcs2_8_string (a ++ b) = Done (r1 ++ r2).
Proof.
  intros Ha Tb Hb H1 H2. pose proof (utf8_text_text8 _ _ Ha) as Ta.
  exists cs1, cs2. repeat split.
  - apply (toUcs2_8_exact a []); [assumption|]. split; [now apply reads_as_text|now apply bmps_upto].
  - apply (toUcs2_8_exact b []); [assumption|]. split; [assumption|now apply bmps_upto].
  - apply (toUcs2_8_exact (a ++ b) []); [now apply text8_app|]. split; [now apply reads_as_app|].
    apply Forall_app. split; now apply bmps_upto.
Qed.
Lemma concat_from16 cs1 a cs2 b : utf16_text cs1 a -> text16 b -> reads_as16 cs2 b ->
  exists r1 r2, toUtf8_16_string a = Done r1 /\ toUtf8_16_string b = Done r2 /\ toUtf8_16_string (a ++ b) = Done (r1 ++ r2) /\
    toUcs4_16_string a = Done cs1 /\ toUcs4_16_string b = Done cs2 /\ toUcs4_16_string (a ++ b) = Done (cs1 ++ cs2).
Proof.
  intros Ha Tb Hb. pose proof (utf16_text_text16 _ _ Ha) as Ta. pose proof (utf16_text_reads _ _ Ha) as Ra.
  pose proof (reads16_app _ _ _ _ Ha Hb) as Rab. assert (Tab : text16 (a ++ b)) by (apply Forall_app; auto).
  exists (flat_map utf8_bytes cs1), (flat_map utf8_bytes cs2). rewrite <- flat_map_app. repeat split.
  - apply (toUtf8_16_exact a [] Ta). now apply reads_lenient.
  - apply (toUtf8_16_exact b [] Tb). now apply reads_lenient.
  - apply (toUtf8_16_exact (a ++ b) [] Tab). now apply reads_lenient.
  - now apply (toUcs4_16_exact a [] Ta).
  - now apply (toUcs4_16_exact b [] Tb).
  - now apply (toUcs4_16_exact (a ++ b) [] Tab).
Qed.
Lemma concat_from32 (f : ptr -> outcome (list Z)) P enc a b :
  (forall us, text32 us -> encodes_or_empty P enc us (f (c_str us))) -> text32 a -> text32 b -> Forall P a -> Forall P b ->
  exists r1 r2, f (c_str a) = Done r1 /\ f (c_str b) = Done r2 /\ f (c_str (a ++ b)) = Done (r1 ++ r2).
Proof.
  intros He Ta Tb Ha Hb. exists (flat_map enc a), (flat_map enc b). rewrite <- flat_map_app. repeat split.
  - now apply He.
  - now apply He.
  - apply He; [apply Forall_app; auto|]. apply Forall_app. auto.
Qed.

(* ---------------------------------------------------------------- ASCII *)

Lemma ascii_flat8 cs : Forall ascii cs -> flat_map utf8_bytes cs = cs.
Proof.
  intros H. rewrite (flat_map_ext_in _ (fun c => [c])); [now rewrite flat_map_single|].
  intros c Hc. rewrite Forall_forall in H. specialize (H c Hc). unfold utf8_bytes. unfold ascii in H.
  now replace (c <? 0x80) with true by lia.
Qed.
Lemma ascii_flat16 cs : Forall ascii cs -> flat_map utf16_units cs = cs.
Proof.
  intros H. rewrite (flat_map_ext_in _ (fun c => [c])); [now rewrite flat_map_single|].
  intros c Hc. rewrite Forall_forall in H. specialize (H c Hc). unfold ascii in H. apply utf16_units_bmp. lia.
Qed.
Lemma ascii_documented t c : ascii c -> documented t c.
Proof. unfold ascii. destruct t; cbn; unfold bmp, scalar, surrogate; lia. Qed.
Lemma Forall_ascii (P : Z -> Prop) cs : (forall c, ascii c -> P c) -> Forall ascii cs -> Forall P cs.
Proof. intros H. apply Forall_impl. exact H. Qed.

Lemma ascii_accepted T cs t : Forall ascii cs ->
  isUtf8_string T cs (code t) nullPredicate = Done true /\ isUtf16_string T cs (code t) nullPredicate = Done true /\
  isUcs2_string T cs (code t) nullPredicate = Done true /\ isUcs4_string T cs (code t) nullPredicate = Done true.
Proof.
  intros H.
  assert (H8 : utf8_text cs cs).
  { rewrite <- (ascii_flat8 cs H) at 2. apply utf8_text_flat. revert H. apply Forall_ascii. unfold ascii, encodable8, surrogate. lia. }
  assert (H16 : utf16_text cs cs).
  { rewrite <- (ascii_flat16 cs H) at 2. apply utf16_text_flat. revert H. apply Forall_ascii. unfold ascii, scalar, surrogate. lia. }
  assert (H32 : text32 cs) by (revert H; apply Forall_ascii; unfold ascii; lia).
  pose proof (utf16_text_text16 _ _ H16) as T16.
  repeat split.
  - apply (answers_true (isUtf8_null_exact T cs [] t (utf8_text_text8 _ _ H8))). apply (acceptable8_whole _ _ cs cs H8).
    revert H. apply Forall_ascii. intros c Hc. now apply documented_isUtf8, ascii_documented.
  - apply (answers_true (isUtf16_null_exact T cs [] t T16)). apply (acceptable16_whole _ _ cs cs H16).
    revert H. apply Forall_ascii. apply ascii_documented.
  - apply (answers_true (isUcs2_null_exact T cs [] t T16)). revert H. apply Forall_ascii. intros c Hc.
    split; [|now apply ascii_documented]. unfold ascii, bmp, surrogate in *. lia.
  - apply (answers_true (isUcs4_null_exact T cs [] t H32)). revert H. apply Forall_ascii. intros c Hc.
    now apply documented_isUcs4, ascii_documented.
Qed.

Lemma ascii_converts cs : Forall ascii cs ->
  toUcs4_8_string cs = Done cs /\ toUtf16_8_string cs = Done cs /\ toUcs2_8_string cs = Done cs /\
  toUcs4_16_string cs = Done cs /\ toUtf8_16_string cs = Done cs /\
  toUtf8_32_string cs = Done cs /\ toUtf16_32_string cs = Done cs /\ toUcs2_32_string cs = Done cs.
Proof.
  intros H.
  assert (H8 : utf8_text cs cs).
  { rewrite <- (ascii_flat8 cs H) at 2. apply utf8_text_flat. revert H. apply Forall_ascii. unfold ascii, encodable8, surrogate. lia. }
  assert (H16 : utf16_text cs cs).
  { rewrite <- (ascii_flat16 cs H) at 2. apply utf16_text_flat. revert H. apply Forall_ascii. unfold ascii, scalar, surrogate. lia. }
  assert (H32 : text32 cs) by (revert H; apply Forall_ascii; unfold ascii; lia).
  pose proof (utf16_text_text16 _ _ H16) as T16. pose proof (utf8_text_text8 _ _ H8) as T8.
  repeat split.
  - apply (toUcs4_8_exact cs [] T8). now apply reads_as_text.
  - rewrite <- (ascii_flat16 cs H) at 2. apply (toUtf16_8_exact cs [] T8). split; [now apply reads_as_text|].
    revert H. apply Forall_ascii. unfold ascii. lia.
  - apply (toUcs2_8_exact cs [] T8). split; [now apply reads_as_text|]. revert H. apply Forall_ascii. unfold ascii. lia.
  - apply (toUcs4_16_exact cs [] T16). now apply utf16_text_reads.
  - rewrite <- (ascii_flat8 cs H) at 2. apply (toUtf8_16_exact cs [] T16). now apply reads_lenient, utf16_text_reads.
  - rewrite <- (ascii_flat8 cs H) at 2. apply (toUtf8_32_exact cs [] H32). revert H. apply Forall_ascii. unfold ascii, encodable8, surrogate. lia.
  - rewrite <- (ascii_flat16 cs H) at 2. apply (toUtf16_32_exact cs [] H32). revert H. apply Forall_ascii. unfold ascii, scalar, surrogate. lia.
  - rewrite <- (flat_map_single cs) at 2. apply (toUcs2_32_exact cs [] H32). revert H. apply Forall_ascii. unfold ascii, bmp, surrogate. lia.
Qed.
