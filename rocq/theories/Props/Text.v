(* C45 - C52: splitting, joining, trimming *)
From Coq Require Import ZArith List Bool.
From Verif Require Import Machine.
From Verif.Model Require Import Tables SplitJoin Trim.
From Verif.Spec Require Import Utf Result Text Chain.
From Verif.Proof Require Import SplitFacts TrimFacts.
Import ListNotations.
Local Open Scope Z_scope.

(* ---- C45: join undoes split ----
   Full statement: forall s d, exists v, split s d = Done v /\ join v d = Done s.
   Missing: d = 0 (join appends nothing for it) and 2^31 or more delimiters (the int count overflows). *)
Theorem C45_join_split_partial : forall s d, d <> 0 -> occurrences d s < 0x80000000 ->
  exists v, split s d = Done v /\ join v d = Done s.
Proof. exact join_split. Qed.
Print Assumptions C45_join_split_partial.

Theorem C45_zero_partial : forall s, occurrences 0 s < 0x80000000 ->
  exists v, split s 0 = Done v /\ join v 0 = Done (filter (fun x => negb (x =? 0)) s).
Proof. exact join_split_zero. Qed.
Print Assumptions C45_zero_partial.

Theorem C45_zero_refuted : exists s d, exists v, split s d = Done v /\ join v d <> Done s.
Proof. exact join_split_refuted. Qed.
Print Assumptions C45_zero_refuted.

Theorem C45_overflow_refuted : exists s, forall d, In d s -> split s d = Undefined.
Proof. exact split_overflow_refuted. Qed.
Print Assumptions C45_overflow_refuted.

Example C45_case : split [0x2C; 0x61; 0x2C; 0x2C; 0x62; 0x2C] 0x2C = Done [[]; [0x61]; []; [0x62]; []] /\
  join [[]; [0x61]; []; [0x62]; []] 0x2C = Done [0x2C; 0x61; 0x2C; 0x2C; 0x62; 0x2C] /\
  occurrences 0x2C [0x2C; 0x61; 0x2C; 0x2C; 0x62; 0x2C] = 4 /\
  split [0x61; 0; 0; 0x62] 0 = Done [[0x61]; []; [0x62]] /\ join [[0x61]; []; [0x62]] 0 = Done [0x61; 0x62].
Proof. repeat split. Qed.

(* ---- C46: split produces exactly the pieces between delimiters ----
   Full statement: as below without the bound on the number of delimiters. *)
Theorem C46_split_partial : forall s d, s <> [] -> occurrences d s < 0x80000000 ->
  exists v, split s d = Done v /\ cut_at d s v /\ Z.of_nat (length v) = 1 + occurrences d s.
Proof. exact split_cuts. Qed.
Print Assumptions C46_split_partial.

Theorem C46_only_cut : forall d s v v', cut_at d s v -> cut_at d s v' -> v = v'.
Proof. exact cut_at_unique. Qed.
Print Assumptions C46_only_cut.

Theorem C46_empty : forall d, split [] d = Done [].
Proof. exact split_empty. Qed.
Print Assumptions C46_empty.

Theorem C46_overflow_partial : forall s d, 0x80000000 <= occurrences d s -> split s d = Undefined.
Proof. exact split_overflow. Qed.
Print Assumptions C46_overflow_partial.

Example C46_case : cut_at 0x2C [0x61; 0x2C] [[0x61]; []] /\ split [0x61; 0x2C] 0x2C = Done [[0x61]; []] /\
  split [0x61] 0x2C = Done [[0x61]] /\ split [0x2C] 0x2C = Done [[]; []].
Proof.
  split; [|repeat split]. split; [discriminate|]. split; [|reflexivity].
  repeat constructor; cbn; intros H; destruct H; try discriminate; assumption.
Qed.

(* ---- C47: split undoes join ----
   Full statement: as below without the bound on the number of pieces. *)
Theorem C47_split_join_partial : forall v d, d <> 0 -> Forall (fun p => ~ In d p) v -> v <> [[]] ->
  Z.of_nat (length v) <= 0x80000000 -> exists s, join v d = Done s /\ split s d = Done v.
Proof. exact split_join. Qed.
Print Assumptions C47_split_join_partial.

Theorem C47_overflow_refuted : exists s d v, d <> 0 /\ Forall (fun p => ~ In d p) v /\ v <> [[]] /\
  join v d = Done s /\ split s d = Undefined.
Proof. exact split_join_overflow. Qed.
Print Assumptions C47_overflow_refuted.

Example C47_case : join [[]; [0x61; 0x62]; []] 0x2C = Done [0x2C; 0x61; 0x62; 0x2C] /\
  split [0x2C; 0x61; 0x62; 0x2C] 0x2C = Done [[]; [0x61; 0x62]; []] /\ join [[]] 0x2C = Done [] /\ split [] 0x2C = Done [].
Proof. repeat split. Qed.

(* ---- C48: join concatenates with single delimiters ----
   Full statement: as below for every d.  For d = 0 the pieces are concatenated without it. *)
Theorem C48_join_partial : forall v d, d <> 0 -> exists r, join v d = Done r /\ r = glue d v /\
  (v <> [] -> Z.of_nat (length r) = total v + (Z.of_nat (length v) - 1)).
Proof. exact join_glues. Qed.
Print Assumptions C48_join_partial.

Theorem C48_zero_partial : forall v, join v 0 = Done (concat v).
Proof. exact join_zero. Qed.
Print Assumptions C48_zero_partial.

Theorem C48_zero_refuted : exists v d, join v d <> Done (glue d v).
Proof. exact join_zero_refuted. Qed.
Print Assumptions C48_zero_refuted.

Example C48_case : join [[0x61; 0x62]; []; [0x63]] 0x2C = Done [0x61; 0x62; 0x2C; 0x2C; 0x63] /\
  total [[0x61; 0x62]; []; [0x63]] = 3 /\ join [] 0x2C = Done [].
Proof. repeat split. Qed.

(* ---- C49: trim removes exactly the outer blanks ---- *)
Theorem C49_trim : forall s, exists r, trim s = Done r /\ trimmed (fun c => c = 0x20) s r.
Proof. exact trim_trims. Qed.
Print Assumptions C49_trim.

Theorem C49_trim_set : forall s l, exists r, trim_set s l = Done r /\ trimmed (fun c => In c l) s r.
Proof. exact trim_set_trims. Qed.
Print Assumptions C49_trim_set.

Theorem C49_ascii : forall s, exists r, trimAscii7WhiteSpace s = Done r /\ trimmed ascii_blank s r.
Proof. exact trim_ascii_trims. Qed.
Print Assumptions C49_ascii.

Theorem C49_white_space : forall s, exists r, trimWhiteSpace_32 s = Done r /\ trimWhiteSpace_16 s = Done r /\ trimmed wide_blank s r.
Proof. exact trim_wide_trims. Qed.
Print Assumptions C49_white_space.

Theorem C49_unique : forall P s r r', trimmed P s r -> trimmed P s r' -> r = r'.
Proof. exact trimmed_unique. Qed.
Print Assumptions C49_unique.

Theorem C49_all_blank : forall P s r, Forall P s -> trimmed P s r -> r = [].
Proof. exact trimmed_all_blank. Qed.
Print Assumptions C49_all_blank.

(* where the removed parts end is determined too, unless everything is removed *)
Theorem C49_front_unique : forall (P : Z -> Prop) front back front' back' r, r <> [] ->
  (forall x t, r = x :: t -> ~ P x) -> Forall P front -> Forall P front' ->
  front ++ r ++ back = front' ++ r ++ back' -> front = front' /\ back = back'.
Proof. exact trimmed_sides. Qed.
Print Assumptions C49_front_unique.

Example C49_case : trim [0x20; 0x20; 0x61; 0x20; 0x62; 0x09; 0x20] = Done [0x61; 0x20; 0x62; 0x09] /\ trim [0x20; 0x20] = Done [] /\
  trim_set [0x2E; 0x2C; 0x61; 0x2C] [0x2C; 0x2E] = Done [0x61] /\
  trimAscii7WhiteSpace [0x0A; 0x61; 0x0D; 0x09] = Done [0x61] /\
  trimWhiteSpace_32 [0x3000; 0x61; 0xA0] = Done [0x61] /\ trimmed (fun c => c = 0x20) [0x20; 0x61; 0x20] [0x61].
Proof.
  do 5 (split; [reflexivity|]). exists [0x20], [0x20]. split; [reflexivity|]. split; [repeat constructor|]. split; [repeat constructor|].
  right. split; [exists 0x61, []|exists [], 0x61]; split; try reflexivity; discriminate.
Qed.

(* ---- C50: agreement across encodings ---- *)
Theorem C50_utf16 : forall cs us, utf16_text cs us ->
  exists r, trimWhiteSpace_32 cs = Done r /\ trimWhiteSpace_16 us = Done (flat_map utf16_units r).
Proof. exact trim_utf16. Qed.
Print Assumptions C50_utf16.

Theorem C50_utf8 : forall cs bs, text8 bs -> reads_as cs bs -> Forall upto cs ->
  exists r, trimWhiteSpace_32 cs = Done r /\ trimWhiteSpace_8 bs = Done (flat_map utf8_bytes r).
Proof. exact trim_utf8. Qed.
Print Assumptions C50_utf8.

Theorem C50_utf8_malformed : forall bs, text8 bs -> (forall cs, reads_as cs bs -> ~ Forall upto cs) -> trimWhiteSpace_8 bs = Done [].
Proof. exact trim_utf8_bad. Qed.
Print Assumptions C50_utf8_malformed.

Example C50_case : trimWhiteSpace_32 [0x3000; 0x1F600; 0xA0] = Done [0x1F600] /\
  trimWhiteSpace_16 [0x3000; 0xD83D; 0xDE00; 0xA0] = Done [0xD83D; 0xDE00] /\
  trimWhiteSpace_8 [0xE3; 0x80; 0x80; 0xF0; 0x9F; 0x98; 0x80; 0xC2; 0xA0] = Done [0xF0; 0x9F; 0x98; 0x80] /\
  trimWhiteSpace_8 [0x20; 0x61; 0xFF] = Done [] /\ trimWhiteSpace_8 [0xF4; 0x90; 0x80; 0x80] = Done [].
Proof. repeat split. Qed.

(* ---- C51: idempotence ---- *)
Theorem C51_trim : forall s, exists r, trim s = Done r /\ trim r = Done r.
Proof. exact trim_twice. Qed.
Print Assumptions C51_trim.

Theorem C51_trim_set : forall s l, exists r, trim_set s l = Done r /\ trim_set r l = Done r.
Proof. exact trim_set_twice. Qed.
Print Assumptions C51_trim_set.

Theorem C51_ascii : forall s, exists r, trimAscii7WhiteSpace s = Done r /\ trimAscii7WhiteSpace r = Done r.
Proof. exact trim_ascii_twice. Qed.
Print Assumptions C51_ascii.

Theorem C51_white_space_32 : forall s, exists r, trimWhiteSpace_32 s = Done r /\ trimWhiteSpace_32 r = Done r.
Proof. exact trim_32_twice. Qed.
Print Assumptions C51_white_space_32.

Theorem C51_white_space_16 : forall s, exists r, trimWhiteSpace_16 s = Done r /\ trimWhiteSpace_16 r = Done r.
Proof. exact trim_16_twice. Qed.
Print Assumptions C51_white_space_16.

Theorem C51_white_space_8 : forall bs, Forall byte bs -> exists r, trimWhiteSpace_8 bs = Done r /\ trimWhiteSpace_8 r = Done r.
Proof. exact trim_8_twice. Qed.
Print Assumptions C51_white_space_8.

Example C51_case : trimWhiteSpace_8 [0x20; 0x61; 0xC2; 0xA0; 0x20] = Done [0x61] /\ trimWhiteSpace_8 [0x61] = Done [0x61] /\
  trimWhiteSpace_8 [0x20; 0x61; 0; 0x62] = Done [0x61].
Proof. repeat split. Qed.

(* ---- C52: trimWhiteSpace trims all Unicode blanks ----
   Full statement: forall v s, Forall unit32 s ->
     exists r, trimWhiteSpace_32 s = Done r /\ trimmed (fun c => member v Whitespace c) s r.
   False: the six code points of left_alone are white space but stay. *)
Theorem C52_exact_partial : forall v s, Forall unit32 s -> exists r, trimWhiteSpace_32 s = Done r /\
  trimmed (fun c => member v Whitespace c /\ ~ In c left_alone) s r.
Proof. exact trim_white_space. Qed.
Print Assumptions C52_exact_partial.

Theorem C52_left_alone_partial : forall v c, In c left_alone -> member v Whitespace c /\ trimWhiteSpace_32 [c] = Done [c].
Proof. exact left_alone_stays. Qed.
Print Assumptions C52_left_alone_partial.

Theorem C52_all_blanks_refuted : exists c, (forall v, member v Whitespace c) /\ trimWhiteSpace_32 [c] = Done [c] /\
  trimWhiteSpace_16 [c] = Done [c] /\ trimWhiteSpace_8 (utf8_bytes c) = Done (utf8_bytes c).
Proof. exact left_alone_refuted. Qed.
Print Assumptions C52_all_blanks_refuted.

Example C52_case : member V7 Whitespace 0x3000 /\ trimWhiteSpace_32 [0x3000; 0x85; 0x61; 0x2005] = Done [0x85; 0x61].
Proof. split; [apply ideographic_space|reflexivity]. Qed.
