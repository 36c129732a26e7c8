(* toUtf8(src, SourceEncoding) against the Microsoft mapping tables *)
From Coq Require Import ZArith List Bool Lia ZifyBool.
From Verif Require Import Machine.
From Verif.Model Require Import Internal CodePage.
From Verif.Spec Require Import Utf Result CodePage.
From Verif.Proof Require Import Bits Encode DecodeFacts TextFacts Round.
Import ListNotations.
Local Open Scope Z_scope.

(* ---------------------------------------------------------------- one byte *)

Definition look (page : list (Z * Z)) (b : Z) : option Z :=
  if b <=? 0x7F then Some b else option_map snd (List.find (fun p => fst p =? b) page).
Definition high (page : list (Z * Z)) : bool :=
  forallb (fun p => (0x80 <=? fst p) && (fst p <=? 0xFF) && (0x80 <=? snd p) && (snd p <? 0xD800)) page.
Definition bytes_from : list Z := map Z.of_nat (seq 1 255).

Lemma bytes_from_in b : 0 < b <= 0xFF -> In b bytes_from.
Proof. intros H. apply in_map_iff. exists (Z.to_nat b). split; [lia|]. apply in_seq. lia. Qed.
Lemma look_sound page b c : 0 < b -> look page b = Some c -> stands_for page b c.
Proof.
  unfold look. intros Hb. destruct (Z.leb_spec b 0x7F); [injection 1 as <-; left; lia|].
  destruct (List.find _ page) as [[b' c']|] eqn:E; [|discriminate]. cbn [option_map snd]. injection 1 as ->. right.
  apply find_some in E. destruct E as [Hin He]. cbn [fst] in He. replace b with b' by lia. exact Hin.
Qed.

(* entries agree with the look-up, so a byte has one meaning *)
Definition one_meaning (page : list (Z * Z)) : bool :=
  forallb (fun p => match look page (fst p) with Some c => c =? snd p | None => false end) page.
Lemma look_complete page b c : one_meaning page = true -> stands_for page b c -> look page b = Some c.
Proof.
  intros H1 [[Hb ->]|Hin]; [unfold look; now replace (b <=? 0x7F) with true by lia|].
  unfold one_meaning in H1. rewrite forallb_forall in H1. specialize (H1 _ Hin). cbn [fst snd] in H1.
  destruct (look page b); [f_equal; lia|discriminate].
Qed.
(* no two entries share a code point *)
Definition other_meaning (page : list (Z * Z)) : bool :=
  forallb (fun p => forallb (fun q => negb (snd p =? snd q) || (fst p =? fst q)) page) page.

Lemma page1252_ok : one_meaning page1252 = true /\ other_meaning page1252 = true /\ high page1252 = true.
Proof. split; [|split]; vm_cast_no_check (eq_refl true). Qed.
Lemma page1250_ok : one_meaning page1250 = true /\ other_meaning page1250 = true /\ high page1250 = true.
Proof. split; [|split]; vm_cast_no_check (eq_refl true). Qed.

Lemma stands_code page b c : high page = true -> stands_for page b c -> 0 < c < 0xD800.
Proof.
  intros Hh [[Hb ->]|Hin]; [lia|]. unfold high in Hh. rewrite forallb_forall in Hh. specialize (Hh _ Hin). cbn [fst snd] in Hh. lia.
Qed.
Lemma stands_injective page b b' c : high page = true -> other_meaning page = true ->
  stands_for page b c -> stands_for page b' c -> b = b'.
Proof.
  intros Hh Ho H H'. unfold high in Hh. rewrite forallb_forall in Hh. unfold other_meaning in Ho. rewrite forallb_forall in Ho.
  destruct H as [[Hb ->]|Hin], H' as [[Hb' E']|Hin'].
  - now symmetry.
  - specialize (Hh _ Hin'). cbn [fst snd] in Hh. lia.
  - specialize (Hh _ Hin). cbn [fst snd] in Hh. lia.
  - specialize (Ho _ Hin). rewrite forallb_forall in Ho. specialize (Ho _ Hin'). cbn [fst snd] in Ho. lia.
Qed.

(* ---------------------------------------------------------------- the loops *)

(* what one turn of each loop does with a byte *)
Definition turn1252 (uc : Z) : outcome (option (list Z)) :=
  if uc <=? 0x7f then Done (Some [uc])
  else if uc <=? 0x9f then
    do uniP <- tableRead cp125280_9F uc; Done (if uniP =? 0 then None else Some (encodeUtf8 uniP))
  else Done (Some (encodeUtf8 uc)).
Definition turn1250 (uc : Z) : outcome (option (list Z)) :=
  if uc <=? 0x7f then Done (Some [uc])
  else do uniP <- tableRead cp125080_FF uc; Done (if uniP =? 0 then None else Some (encodeUtf8 uniP)).

Definition same (a : outcome (option (list Z))) (b : option (list Z)) : bool :=
  match a, b with
  | Done (Some x), Some y => if list_eq_dec Z.eq_dec x y then true else false
  | Done None, None => true
  | _, _ => false
  end.
Lemma same_eq a b : same a b = true -> a = Done b.
Proof.
  unfold same. destruct a as [[x|]| |], b as [y|]; try discriminate; [|reflexivity].
  destruct (list_eq_dec Z.eq_dec x y); [congruence|discriminate].
Qed.
Lemma turns1252 : forallb (fun b => same (turn1252 b) (option_map utf8_bytes (look page1252 b))) bytes_from = true.
Proof. vm_cast_no_check (eq_refl true). Qed.
Lemma turns1250 : forallb (fun b => same (turn1250 b) (option_map utf8_bytes (look page1250 b))) bytes_from = true.
Proof. vm_cast_no_check (eq_refl true). Qed.
Lemma turn1252_spec b : 0 < b <= 0xFF -> turn1252 b = Done (option_map utf8_bytes (look page1252 b)).
Proof. intros H. apply same_eq. exact (proj1 (forallb_forall _ _) turns1252 b (bytes_from_in b H)). Qed.
Lemma turn1250_spec b : 0 < b <= 0xFF -> turn1250 b = Done (option_map utf8_bytes (look page1250 b)).
Proof. intros H. apply same_eq. exact (proj1 (forallb_forall _ _) turns1250 b (bytes_from_in b H)). Qed.

Fixpoint run (page : list (Z * Z)) (bs acc : list Z) : list Z :=
  match bs with
  | [] => acc
  | b :: bs' => match look page b with Some c => run page bs' (acc ++ utf8_bytes c) | None => [] end
  end.
Lemma cp1252_run bs : forall acc junk, text8 bs -> cp1252_loop (bs ++ 0 :: junk) acc = Done (run page1252 bs acc).
Proof.
  induction bs as [|b bs IH]; intros acc junk H; [reflexivity|]. apply Forall_cons_inv in H. destruct H as [Hb H].
  cbn [app cp1252_loop run]. replace (b =? 0) with false by lia.
  pose proof (turn1252_spec b ltac:(lia)) as E. unfold turn1252 in E.
  destruct (b <=? 0x7f); [|destruct (b <=? 0x9f)].
  - destruct (look page1252 b); cbn [option_map] in E; [injection E as <-; now apply IH|discriminate].
  - destruct (tableRead cp125280_9F b) as [u| |]; cbn [bind] in *; [|discriminate|discriminate].
    destruct (u =? 0), (look page1252 b); cbn [option_map] in E; try discriminate; [reflexivity|].
    injection E as <-. now apply IH.
  - destruct (look page1252 b); cbn [option_map] in E; [injection E as <-; now apply IH|discriminate].
Qed.
Lemma cp1250_run bs : forall acc junk, text8 bs -> cp1250_loop (bs ++ 0 :: junk) acc = Done (run page1250 bs acc).
Proof.
  induction bs as [|b bs IH]; intros acc junk H; [reflexivity|]. apply Forall_cons_inv in H. destruct H as [Hb H].
  cbn [app cp1250_loop run]. replace (b =? 0) with false by lia.
  pose proof (turn1250_spec b ltac:(lia)) as E. unfold turn1250 in E.
  destruct (b <=? 0x7f).
  - destruct (look page1250 b); cbn [option_map] in E; [injection E as <-; now apply IH|discriminate].
  - destruct (tableRead cp125080_FF b) as [u| |]; cbn [bind] in *; [|discriminate|discriminate].
    destruct (u =? 0), (look page1250 b); cbn [option_map] in E; try discriminate; [reflexivity|].
    injection E as <-. now apply IH.
Qed.

Lemma run_good page bs cs : one_meaning page = true -> stand_for page bs cs -> forall acc, run page bs acc = acc ++ flat_map utf8_bytes cs.
Proof.
  intros H1 H. induction H as [|b c bs cs Hb _ IH]; intros acc; cbn [run flat_map]; [now rewrite app_nil_r|].
  rewrite (look_complete _ _ _ H1 Hb), IH. now rewrite app_assoc.
Qed.
Lemma run_bad page bs : text8 bs -> (forall cs, ~ stand_for page bs cs) -> forall acc, run page bs acc = [].
Proof.
  intros H. induction H as [|b bs Hb _ IH]; intros Hn acc; [exfalso; apply (Hn []); constructor|].
  cbn [run]. destruct (look page b) as [c|] eqn:E; [|reflexivity]. apply IH. intros cs Hcs. apply (Hn (c :: cs)).
  constructor; [apply look_sound; [lia|assumption]|assumption].
Qed.

(* ---------------------------------------------------------------- the function *)

Lemma toUtf8_cp1252_exact bs junk : text8 bs ->
  exact_conversion (stand_for page1252 bs) (flat_map utf8_bytes) (toUtf8_cp (At (bs ++ 0 :: junk)) kSrcCP1252).
Proof.
  intros H. assert (E : toUtf8_cp (At (bs ++ 0 :: junk)) kSrcCP1252 = Done (run page1252 bs [])).
  { destruct bs as [|b bs]; [reflexivity|]. rewrite <- (cp1252_run _ [] junk H). unfold toUtf8_cp. cbn [app deref bind].
    apply Forall_cons_inv in H. now replace (b =? 0) with false by lia. }
  rewrite E. split.
  - intros cs Hcs. now rewrite (run_good _ _ _ (proj1 page1252_ok) Hcs).
  - intros Hn. now rewrite run_bad.
Qed.
Lemma toUtf8_cp1250_exact bs junk : text8 bs ->
  exact_conversion (stand_for page1250 bs) (flat_map utf8_bytes) (toUtf8_cp (At (bs ++ 0 :: junk)) kSrcCP1250).
Proof.
  intros H. assert (E : toUtf8_cp (At (bs ++ 0 :: junk)) kSrcCP1250 = Done (run page1250 bs [])).
  { destruct bs as [|b bs]; [reflexivity|]. rewrite <- (cp1250_run _ [] junk H). unfold toUtf8_cp. cbn [app deref bind].
    apply Forall_cons_inv in H. now replace (b =? 0) with false by lia. }
  rewrite E. split.
  - intros cs Hcs. now rewrite (run_good _ _ _ (proj1 page1250_ok) Hcs).
  - intros Hn. now rewrite run_bad.
Qed.
Lemma cstring_copy_spec us junk : Forall (fun u => u <> 0) us -> cstring_copy (us ++ 0 :: junk) = Done us.
Proof.
  intros H. induction H as [|u us Hu _ IH]; [reflexivity|]. cbn [app cstring_copy]. replace (u =? 0) with false by lia. now rewrite IH.
Qed.
Lemma toUtf8_cp_unicode bs junk : text8 bs -> toUtf8_cp (At (bs ++ 0 :: junk)) kSrcUnicode = Done bs.
Proof.
  intros H. assert (Hz : Forall (fun u => u <> 0) bs) by (eapply Forall_impl; [|exact H]; cbn beta; lia).
  destruct bs as [|b bs]; [reflexivity|]. unfold toUtf8_cp. cbn [app deref bind].
  replace (b =? 0) with false by (apply Forall_cons_inv in H; lia). cbn [Z.eqb kSrcUnicode]. exact (cstring_copy_spec _ junk Hz).
Qed.
Lemma toUtf8_cp_other bs junk n : text8 bs -> n <> kSrcUnicode -> n <> kSrcCP1252 -> n <> kSrcCP1250 ->
  toUtf8_cp (At (bs ++ 0 :: junk)) n = Done [].
Proof.
  intros H H0 H1 H2. destruct bs as [|b bs]; [reflexivity|]. unfold toUtf8_cp. cbn [app deref bind].
  replace (b =? 0) with false by (apply Forall_cons_inv in H; lia).
  replace (n =? kSrcUnicode) with false by lia. replace (n =? kSrcCP1252) with false by lia. now replace (n =? kSrcCP1250) with false by lia.
Qed.

(* assigned bytes: exactly these five of each page are missing *)
Definition absent (page : list (Z * Z)) (b : Z) : bool := match look page b with None => true | _ => false end.
Definition unassigned (page : list (Z * Z)) : list Z := filter (absent page) bytes_from.
Lemma unassigned_in page b : In b (unassigned page) <-> In b bytes_from /\ absent page b = true.
Proof. exact (filter_In (absent page) b bytes_from). Qed.
Lemma assigned page (missing : list Z) : unassigned page = missing -> forall b, 0 < b <= 0xFF ->
  (exists c, stands_for page b c) \/ In b missing.
Proof.
  intros <- b Hb. destruct (look page b) as [c|] eqn:E; [left; exists c; apply look_sound; [lia|assumption]|right].
  apply unassigned_in. split; [now apply bytes_from_in|]. unfold absent. now rewrite E.
Qed.
Lemma unassigned1252 : unassigned page1252 = [0x81; 0x8D; 0x8F; 0x90; 0x9D].
Proof. vm_cast_no_check (eq_refl [0x81; 0x8D; 0x8F; 0x90; 0x9D]). Qed.
Lemma unassigned1250 : unassigned page1250 = [0x81; 0x83; 0x88; 0x90; 0x98].
Proof. vm_cast_no_check (eq_refl [0x81; 0x83; 0x88; 0x90; 0x98]). Qed.
Lemma all_or_some page missing bs : unassigned page = missing -> text8 bs ->
  (exists cs, stand_for page bs cs) \/ exists b, In b bs /\ In b missing.
Proof.
  intros Hm H. induction H as [|b bs Hb _ IH]; [left; exists []; constructor|].
  destruct (assigned page missing Hm b ltac:(lia)) as [[c Hc]|Hin]; [|right; exists b; split; [now left|assumption]].
  destruct IH as [[cs Hcs]|(x & Hx & Hx')]; [left; exists (c :: cs); now constructor|right; exists x; split; [now right|assumption]].
Qed.
Lemma missing_none page missing bs b : one_meaning page = true -> unassigned page = missing -> In b bs -> In b missing ->
  forall cs, ~ stand_for page bs cs.
Proof.
  intros H1 <- Hb Hm cs Hcs. destruct (proj1 (unassigned_in page b) Hm) as [_ Ha]. clear Hm. rename Ha into Hm.
  induction Hcs as [|b' c bs cs Hc _ IH]; [destruct Hb|]. destruct Hb as [->|Hb]; [|exact (IH Hb)].
  unfold absent in Hm. rewrite (look_complete _ _ _ H1 Hc) in Hm. discriminate.
Qed.
Lemma cp_unassigned page missing n (f : ptr -> Z -> outcome (list Z)) bs junk b : one_meaning page = true -> unassigned page = missing ->
  exact_conversion (stand_for page bs) (flat_map utf8_bytes) (f (At (bs ++ 0 :: junk)) n) ->
  In b bs -> In b missing -> f (At (bs ++ 0 :: junk)) n = Done [].
Proof. intros H1 Hm [_ He] Hb Hb'. apply He. exact (missing_none page missing bs b H1 Hm Hb Hb'). Qed.
Lemma cp1252_unassigned bs junk b : text8 bs -> In b bs -> In b [0x81; 0x8D; 0x8F; 0x90; 0x9D] ->
  toUtf8_cp (At (bs ++ 0 :: junk)) kSrcCP1252 = Done [].
Proof. intros H. exact (cp_unassigned page1252 _ kSrcCP1252 toUtf8_cp bs junk b (proj1 page1252_ok) unassigned1252 (toUtf8_cp1252_exact bs junk H)). Qed.
Lemma cp1250_unassigned bs junk b : text8 bs -> In b bs -> In b [0x81; 0x83; 0x88; 0x90; 0x98] ->
  toUtf8_cp (At (bs ++ 0 :: junk)) kSrcCP1250 = Done [].
Proof. intros H. exact (cp_unassigned page1250 _ kSrcCP1250 toUtf8_cp bs junk b (proj1 page1250_ok) unassigned1250 (toUtf8_cp1250_exact bs junk H)). Qed.

(* ---------------------------------------------------------------- lossless *)

Lemma stand_codes page bs cs : high page = true -> stand_for page bs cs -> Forall scalar cs.
Proof.
  intros Hh H. induction H as [|b c bs cs Hc _ IH]; constructor; [|assumption].
  pose proof (stands_code _ _ _ Hh Hc). unfold scalar, surrogate. lia.
Qed.
Lemma stand_unique page bs bs' cs : high page = true -> other_meaning page = true -> stand_for page bs cs -> stand_for page bs' cs -> bs = bs'.
Proof.
  intros Hh Ho H. revert bs'. induction H as [|b c bs cs Hc _ IH]; intros bs' H'; inversion H'; subst; [reflexivity|].
  f_equal; [eapply stands_injective; eauto|auto].
Qed.
Lemma stand_length page bs cs : stand_for page bs cs -> length cs = length bs.
Proof. intros H. induction H; cbn [length]; congruence. Qed.
Lemma stand_text8 page bs cs : high page = true -> stand_for page bs cs -> text8 bs.
Proof.
  intros Hh H. induction H as [|b c bs cs Hc _ IH]; constructor; [|assumption].
  destruct Hc as [[Hb _]|Hin]; [lia|]. unfold high in Hh. rewrite forallb_forall in Hh. specialize (Hh _ Hin). cbn [fst snd] in Hh. lia.
Qed.
Definition page_ok page := one_meaning page = true /\ other_meaning page = true /\ high page = true.
Definition exact_page page n := forall bs junk, text8 bs ->
  exact_conversion (stand_for page bs) (flat_map utf8_bytes) (toUtf8_cp (At (bs ++ 0 :: junk)) n).
Lemma cp_valid page n bs cs : page_ok page -> exact_page page n -> stand_for page bs cs ->
  exists r, toUtf8_cp (c_str bs) n = Done r /\ utf8_text cs r /\ Forall scalar cs /\ length cs = length bs.
Proof.
  intros (_ & _ & Hh) Hex Hcs. exists (flat_map utf8_bytes cs). pose proof (stand_codes _ _ _ Hh Hcs) as Hs.
  split; [exact (proj1 (Hex bs [] (stand_text8 _ _ _ Hh Hcs)) cs Hcs)|].
  split; [exact (utf8_text_flat cs (scalars_encodable8 _ Hs))|]. split; [exact Hs|]. exact (stand_length _ _ _ Hcs).
Qed.
Lemma cp_injective page n bs bs' cs cs' : page_ok page -> exact_page page n -> stand_for page bs cs -> stand_for page bs' cs' ->
  toUtf8_cp (c_str bs) n = toUtf8_cp (c_str bs') n -> bs = bs'.
Proof.
  intros Hp Hex Hcs Hcs' E.
  destruct (cp_valid _ _ _ _ Hp Hex Hcs) as (r & E1 & Ht & _), (cp_valid _ _ _ _ Hp Hex Hcs') as (r' & E2 & Ht' & _).
  rewrite E1, E2 in E. injection E as <-. destruct Hp as (H1 & Ho & Hh).
  assert (cs' = cs) as -> by (exact (reads_as_unique _ _ _ (reads_as_text _ _ Ht') (reads_as_text _ _ Ht))).
  exact (stand_unique _ _ _ _ Hh Ho Hcs Hcs').
Qed.
Lemma cp1252_valid bs cs : stand_for page1252 bs cs ->
  exists r, toUtf8_cp (c_str bs) kSrcCP1252 = Done r /\ utf8_text cs r /\ Forall scalar cs /\ length cs = length bs.
Proof. exact (cp_valid page1252 kSrcCP1252 bs cs page1252_ok toUtf8_cp1252_exact). Qed.
Lemma cp1250_valid bs cs : stand_for page1250 bs cs ->
  exists r, toUtf8_cp (c_str bs) kSrcCP1250 = Done r /\ utf8_text cs r /\ Forall scalar cs /\ length cs = length bs.
Proof. exact (cp_valid page1250 kSrcCP1250 bs cs page1250_ok toUtf8_cp1250_exact). Qed.
Lemma cp1252_injective bs bs' cs cs' : stand_for page1252 bs cs -> stand_for page1252 bs' cs' ->
  toUtf8_cp (c_str bs) kSrcCP1252 = toUtf8_cp (c_str bs') kSrcCP1252 -> bs = bs'.
Proof. exact (cp_injective page1252 kSrcCP1252 bs bs' cs cs' page1252_ok toUtf8_cp1252_exact). Qed.
Lemma cp1250_injective bs bs' cs cs' : stand_for page1250 bs cs -> stand_for page1250 bs' cs' ->
  toUtf8_cp (c_str bs) kSrcCP1250 = toUtf8_cp (c_str bs') kSrcCP1250 -> bs = bs'.
Proof. exact (cp_injective page1250 kSrcCP1250 bs bs' cs cs' page1250_ok toUtf8_cp1250_exact). Qed.
(* which bytes are assigned *)
Lemma assigned1252 b : 0 < b <= 0xFF -> (exists c, stands_for page1252 b c) <-> ~ In b [0x81; 0x8D; 0x8F; 0x90; 0x9D].
Proof.
  intros Hb. split; [intros [c Hc] Hm|intros Hn; destruct (assigned page1252 _ unassigned1252 b Hb); [assumption|contradiction]].
  apply (missing_none page1252 _ [b] b (proj1 page1252_ok) unassigned1252 (or_introl eq_refl) Hm [c]). constructor; [exact Hc|constructor].
Qed.
Lemma assigned1250 b : 0 < b <= 0xFF -> (exists c, stands_for page1250 b c) <-> ~ In b [0x81; 0x83; 0x88; 0x90; 0x98].
Proof.
  intros Hb. split; [intros [c Hc] Hm|intros Hn; destruct (assigned page1250 _ unassigned1250 b Hb); [assumption|contradiction]].
  apply (missing_none page1250 _ [b] b (proj1 page1250_ok) unassigned1250 (or_introl eq_refl) Hm [c]). constructor; [exact Hc|constructor].
Qed.
Lemma case_1252 : stand_for page1252 [0x41; 0x80; 0xE9] [0x41; 0x20AC; 0xE9].
Proof.
  constructor; [|constructor; [|constructor; [|constructor]]]; apply (look_sound page1252); reflexivity.
Qed.
Lemma case_1250 : stand_for page1250 [0x41; 0x80; 0xE8] [0x41; 0x20AC; 0x10D].
Proof.
  constructor; [|constructor; [|constructor; [|constructor]]]; apply (look_sound page1250); reflexivity.
Qed.
Lemma case_1250_text : utf8_text [0x41; 0x20AC; 0x10D] [0x41; 0xE2; 0x82; 0xAC; 0xC4; 0x8D].
Proof. apply (utf8_text_flat [0x41; 0x20AC; 0x10D]). apply scalars_encodable8. exact (stand_codes _ _ _ (proj2 (proj2 page1250_ok)) case_1250). Qed.
