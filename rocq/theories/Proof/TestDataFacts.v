(* mkUnicodeTestData: the loop of process() over a file of data lines *)
From Coq Require Import ZArith List Bool String Ascii Lia.
From Verif Require Import Machine.
From Verif.Model Require Import SplitJoin TestData.
From Verif.Spec Require Import Text TestData.
From Verif.Proof Require Import Bits SplitFacts.
Import ListNotations.
Local Open Scope Z_scope.

Lemma literal_chars s : literal s = chars s.
Proof. induction s as [|a s IH]; cbn; [reflexivity|]. rewrite IH. unfold nat_of_ascii. rewrite N_nat_Z. reflexivity. Qed.

(* ---- searching ---- *)
Lemma starts_with_spec n s : starts_with n s = true <-> exists b, s = n ++ b.
Proof.
  revert s; induction n as [|x n IH]; intros s; cbn.
  - split; [exists s; reflexivity|reflexivity].
  - destruct s as [|y s]; [split; [discriminate|intros (b & H); discriminate]|].
    rewrite andb_true_iff, IH, Z.eqb_eq. split.
    + intros (-> & b & ->). exists b. reflexivity.
    + intros (b & H). inversion H; subst. split; [reflexivity|exists b; reflexivity].
Qed.

Lemma found_spec n s : found n s = true <-> contains n s.
Proof.
  unfold contains. induction s as [|y s IH]; cbn [found]; rewrite orb_true_iff, starts_with_spec.
  - split; [intros [(b & H)|H]; [exists [], b; exact H|discriminate]|].
    intros (a & b & H). left. destruct a; [exists b; exact H|discriminate].
  - rewrite IH. split.
    + intros [(b & H)|(a & b & H)]; [exists [], b; exact H|exists (y :: a), b; rewrite H; reflexivity].
    + intros (a & b & H). destruct a as [|z a]; [left; exists b; exact H|].
      right. inversion H; subst. exists a, b. reflexivity.
Qed.

(* ---- reading lines ---- *)
Lemma take_line_newline l rest : ~ In 10 l -> take_line (l ++ 10 :: rest) = (l, {| unread := rest; good := true |}).
Proof.
  induction l as [|c l IH]; intros H; cbn; [reflexivity|].
  destruct (Z.eqb_spec c 10) as [->|_]; [destruct H; left; reflexivity|].
  rewrite IH; [reflexivity|]. intros K; apply H; right; exact K.
Qed.

Lemma take_line_end l : ~ In 10 l -> take_line l = (l, {| unread := []; good := false |}).
Proof.
  induction l as [|c l IH]; intros H; cbn; [reflexivity|].
  destruct (Z.eqb_spec c 10) as [->|_]; [destruct H; left; reflexivity|].
  rewrite IH; [reflexivity|]. intros K; apply H; right; exact K.
Qed.

(* ---- fields of a line ---- *)
Lemma split_line e : entry_ok e ->
  exists fs, split (line e) 59 = Done (code e :: name e :: fs).
Proof.
  intros (Hc & Hn & Hm & _ & Hl & Ho).
  destruct (split_cuts (line e) 59) as (v & E & Hv & _); [intros K; rewrite K in Hl; cbn in Hl; lia|exact Ho|].
  apply pieces_unique in Hv. unfold line in Hv, E |- *. rewrite pieces_cut in Hv by exact Hc.
  destruct Hm as [Em|(m & Em)]; rewrite Em in *.
  - rewrite app_nil_r in *. rewrite pieces_plain in Hv by exact Hn. exists []. rewrite E, <- Hv. reflexivity.
  - rewrite pieces_cut in Hv by exact Hn. exists (pieces 59 m). rewrite E, <- Hv. reflexivity.
Qed.

Lemma visible_app a b : visible (a ++ b) = visible a ++ visible b.
Proof. apply filter_app. Qed.

(* ---- one turn of the loop, and all turns over the lines of [es] ---- *)
Definition next_turn (fuel : nat) (rest : list Z) (n : Z) (out : list Z) : outcome (list Z) :=
  let '(l, s) := take_line rest in
  do fields <- split l semicolon;
  process_loop fuel l fields s n out.

Lemma listed_dec e : {listed e} + {~ listed e}.
Proof.
  unfold listed.
  destruct (found (chars "Surrogate") (name e)) eqn:A; [right|].
  - apply found_spec in A. tauto.
  - destruct (found (chars "Private") (name e)) eqn:B; [right|left].
    + apply found_spec in B. tauto.
    + split; rewrite <- found_spec; congruence.
Qed.

Lemma one_turn fuel e fs rest n out : entry_ok e -> 0 <= n < 0x7fffffff ->
  exists n' out', n <= n' <= n + 1 /\
    visible out' = visible out ++ (if listed_dec e then visible (chars "0x" ++ code e ++ chars ",") else []) /\
    process_loop (S fuel) (line e) (code e :: name e :: fs) {| unread := rest; good := true |} n out
    = next_turn fuel rest n' out'.
Proof.
  intros He Hn. pose proof He as (_ & _ & _ & _ & Hl & _). cbn [process_loop].
  replace (Z.of_nat (List.length (line e)) >? 10) with true by lia. cbn [field nth_error bind].
  rewrite !literal_chars. unfold next_turn, getline. cbn [good unread].
  destruct (listed_dec e) as [L|L].
  - destruct L as (L1 & L2).
    destruct (found (chars "Surrogate") (name e)) eqn:A; [apply found_spec in A; contradiction|].
    destruct (found (chars "Private") (name e)) eqn:B; [apply found_spec in B; contradiction|]. cbn [orb].
    destruct (take_line rest) as (l, s). unfold int_incr. replace (n <? 0x7fffffff) with true by lia.
    set (out1 := out ++ chars " 0x" ++ code e ++ chars ",").
    set (out2 := if negb (Z.of_nat (List.length l) =? 0) && ((n + 1) mod 10 =? 0)
                 then out1 ++ endl ++ chars "   " else out1).
    exists (n + 1), out2. split; [lia|]. split; [|cbn [bind]; reflexivity].
    assert (V : visible out2 = visible out1).
    { unfold out2. destruct (negb _ && _); [|reflexivity]. rewrite !visible_app. cbn. apply app_nil_r. }
    rewrite V. unfold out1. rewrite !visible_app. reflexivity.
  - exists n, out. split; [lia|]. split; [rewrite app_nil_r; reflexivity|].
    destruct (found (chars "Surrogate") (name e) || found (chars "Private") (name e)) eqn:A.
    + destruct (take_line rest) as (l, s). reflexivity.
    + exfalso. apply L. apply orb_false_iff in A. destruct A as (A & B). unfold listed.
      rewrite <- !found_spec. rewrite A, B. split; discriminate.
Qed.

Lemma all_turns : forall es cs, Forall entry_ok es -> listing es cs ->
  forall fuel rest n out, 0 <= n -> n + Z.of_nat (List.length es) <= 0x7fffffff ->
  exists n' out', 0 <= n' <= n + Z.of_nat (List.length es) /\
    visible out' = visible out ++ visible (flat_map (fun c => chars "0x" ++ c ++ chars ",") cs) /\
    next_turn (List.length es + fuel) (file es ++ rest) n out = next_turn fuel rest n' out'.
Proof.
  induction es as [|e es IH]; intros cs Hes Hl fuel rest n out Hn Hb.
  - inversion Hl; subst. exists n, out. cbn [List.length Nat.add file flat_map app] in *.
    split; [lia|]. split; [cbn; rewrite app_nil_r; reflexivity|reflexivity].
  - inversion Hes as [|? ? He Hes']; subst. cbn [List.length] in Hb.
    destruct (split_line e He) as (fs & Es).
    cbn [List.length Nat.add file flat_map]. rewrite <- !app_assoc. cbn [app].
    unfold next_turn at 1. rewrite take_line_newline by apply He. unfold semicolon. rewrite Es. cbn [bind].
    destruct (one_turn (List.length es + fuel) e fs (file es ++ rest) n out He ltac:(lia)) as (n1 & out1 & B1 & V1 & E1).
    unfold file in E1. rewrite E1.
    assert (exists cs', listing es cs' /\
      visible (flat_map (fun c => chars "0x" ++ c ++ chars ",") cs) =
      (if listed_dec e then visible (chars "0x" ++ code e ++ chars ",") else []) ++
      visible (flat_map (fun c => chars "0x" ++ c ++ chars ",") cs')) as (cs' & Hl' & Vc).
    { inversion Hl as [|? ? cs' L1 L2|? ? cs' L1 L2]; subst.
      - exists cs'. split; [exact L2|]. destruct (listed_dec e); [|contradiction].
        cbn [flat_map]. rewrite visible_app. reflexivity.
      - exists cs. split; [exact L2|]. destruct (listed_dec e); [contradiction|]. reflexivity. }
    destruct (IH cs' Hes' Hl' fuel rest n1 out1 ltac:(lia) ltac:(lia)) as (n2 & out2 & B2 & V2 & E2).
    exists n2, out2. split; [lia|]. split; [rewrite V2, V1, Vc, <- app_assoc; reflexivity|].
    exact E2.
Qed.

Lemma process_next fuel f : f <> [] -> hd 10 f <> 10 ->
  process fuel f = do out <- next_turn fuel f 0 (chars "char32_t validUnicodeCodePoints[] = {" ++ endl ++ chars "    ");
                   Done (out ++ chars " 0xFFFFFFFF };" ++ endl).
Proof.
  intros Hf Hh. unfold process, getline, next_turn. cbn [good unread].
  destruct f as [|c f]; [contradiction|]. cbn [hd] in Hh. cbn [take_line].
  destruct (Z.eqb_spec c 10) as [->|_]; [contradiction|]. destruct (take_line f) as (l, s).
  destruct (split (c :: l) semicolon) as [v| |] eqn:E; [|reflexivity|reflexivity]. cbn [bind].
  destruct v as [|p v].
  - exfalso.
    destruct (Z.ltb_spec (occurrences 59 (c :: l)) 0x80000000) as [H|H].
    + destruct (split_cuts (c :: l) 59) as (v & E' & (Hv & _) & _); [discriminate|exact H|].
      unfold semicolon in E. rewrite E' in E. inversion E; subst. contradiction.
    + rewrite split_overflow in E by exact H. discriminate.
  - rewrite !literal_chars. reflexivity.
Qed.

Lemma first_char_ok es rest : Forall entry_ok es -> es <> [] ->
  file es ++ rest <> [] /\ hd 10 (file es ++ rest) <> 10.
Proof.
  intros Hes Hne. destruct es as [|e es]; [contradiction|]. inversion Hes as [|? ? He _]; subst.
  destruct He as (_ & _ & _ & Hn & Hl & _). cbn [file flat_map]. rewrite <- !app_assoc.
  destruct (line e) as [|c l]; [cbn in Hl; lia|]. cbn [app hd]. split; [discriminate|].
  intros ->. apply Hn. left. reflexivity.
Qed.

Lemma short_split l : Z.of_nat (List.length l) <= 10 -> exists v, split l semicolon = Done v.
Proof.
  intros H. destruct l as [|c l]; [exists []; reflexivity|].
  destruct (split_cuts (c :: l) semicolon) as (v & E & _); [discriminate| |exists v; exact E].
  unfold occurrences. pose proof (count_occ_bound Z.eq_dec semicolon (c :: l)). lia.
Qed.

Lemma stop_turn fuel rest n out : stop rest -> next_turn (S fuel) rest n out = Done out.
Proof.
  intros [->|(short & junk & -> & Hn & Hs)]; unfold next_turn.
  - reflexivity.
  - rewrite take_line_newline by exact Hn. destruct (short_split short Hs) as (v & E). rewrite E. cbn [bind process_loop].
    replace (Z.of_nat (List.length short) >? 10) with false by lia. reflexivity.
Qed.

Lemma process_lists es cs rest fuel : Forall entry_ok es -> es <> [] -> Z.of_nat (List.length es) <= 0x7fffffff ->
  listing es cs -> stop rest -> (List.length es < fuel)%nat ->
  exists out, process fuel (file es ++ rest) = Done out /\ visible out = array_of cs.
Proof.
  intros Hes Hne Hb Hl Hs Hf. destruct (first_char_ok es rest Hes Hne) as (A & B).
  rewrite process_next by assumption.
  replace fuel with (List.length es + S (fuel - List.length es - 1))%nat by lia.
  destruct (all_turns es cs Hes Hl (S (fuel - List.length es - 1)) rest 0
    (chars "char32_t validUnicodeCodePoints[] = {" ++ endl ++ chars "    ") ltac:(lia) ltac:(lia)) as (n' & out' & _ & V & E).
  rewrite E, stop_turn by exact Hs. cbn [bind]. eexists. split; [reflexivity|].
  unfold array_of. rewrite !visible_app, V, !visible_app. cbn [endl]. 
  change (visible endl) with (@nil Z). change (visible (chars "    ")) with (@nil Z).
  rewrite !app_nil_r, <- app_assoc. reflexivity.
Qed.

(* a long last line without a newline is never left *)
Lemma stuck fuel : forall e fs n out r, entry_ok e ->
  process_loop fuel (line e) (code e :: name e :: fs) {| unread := []; good := false |} n out <> Done r.
Proof.
  induction fuel as [|fuel IH]; intros e fs n out r He; [discriminate|]. cbn [process_loop].
  pose proof He as (_ & _ & _ & _ & Hl & _). destruct (split_line e He) as (fs' & Es).
  replace (Z.of_nat (List.length (line e)) >? 10) with true by lia. cbn [field nth_error bind].
  unfold getline. cbn [good]. unfold semicolon. rewrite Es. cbn [bind]. unfold int_incr.
  destruct (found _ _ || found _ _); [apply IH, He|].
  destruct (n <? 0x7fffffff); [|discriminate]. cbn [bind]. apply IH, He.
Qed.

Lemma stuck_turns : forall es, Forall entry_ok es -> forall e, entry_ok e -> forall fuel n out r,
  0 <= n -> n + Z.of_nat (List.length es) <= 0x7fffffff ->
  next_turn fuel (file es ++ line e) n out <> Done r.
Proof.
  induction es as [|e' es IH]; intros Hes e He fuel n out r Hn Hb.
  - cbn [file flat_map app]. unfold next_turn. rewrite take_line_end by apply He.
    destruct (split_line e He) as (fs & Es). unfold semicolon. rewrite Es. cbn [bind]. apply stuck, He.
  - inversion Hes as [|? ? He' Hes']; subst. destruct (split_line e' He') as (fs & Es).
    cbn [file flat_map]. rewrite <- !app_assoc. cbn [app]. unfold next_turn. rewrite take_line_newline by apply He'.
    unfold semicolon. rewrite Es. cbn [bind]. destruct fuel as [|fuel]; [discriminate|].
    cbn [List.length] in Hb.
    destruct (one_turn fuel e' fs (file es ++ line e) n out He' ltac:(lia)) as (n1 & out1 & B1 & _ & E1).
    unfold file in E1. rewrite E1. apply (IH Hes' e He fuel n1 out1 r); lia.
Qed.

Lemma process_stuck es e : Forall entry_ok es -> Z.of_nat (List.length es) <= 0x7fffffff -> entry_ok e ->
  forall fuel out, process fuel (file es ++ line e) <> Done out.
Proof.
  intros Hes Hb He fuel out.
  assert (H : file es ++ line e <> [] /\ hd 10 (file es ++ line e) <> 10).
  { destruct es as [|e' es]; [|apply first_char_ok; [exact Hes|discriminate]].
    destruct He as (_ & _ & _ & Hn & Hlen & _). cbn [file flat_map app].
    destruct (line e) as [|c l]; [cbn in Hlen; lia|]. split; [discriminate|]. cbn [hd]. intros ->. apply Hn. left. reflexivity. }
  destruct H as (A & B). rewrite process_next by assumption.
  set (out0 := chars _ ++ _). clearbody out0.
  pose proof (stuck_turns es Hes e He fuel 0 out0) as K.
  destruct (next_turn fuel (file es ++ line e) 0 out0) as [r| |]; [|discriminate|discriminate].
  exfalso. apply (K r); [lia|lia|reflexivity].
Qed.

(* a long line without a semicolon *)
Lemma process_bad es cs bad junk fuel : Forall entry_ok es -> listing es cs ->
  Z.of_nat (List.length es) <= 0x7fffffff -> (List.length es < fuel)%nat ->
  ~ In 10 bad -> ~ In 59 bad -> 10 < Z.of_nat (List.length bad) ->
  process fuel (file es ++ bad ++ 10 :: junk) = Undefined.
Proof.
  intros Hes Hl Hb Hf Hn Hs Hlen.
  assert (H : file es ++ bad ++ 10 :: junk <> [] /\ hd 10 (file es ++ bad ++ 10 :: junk) <> 10).
  { destruct es as [|e' es]; [|apply first_char_ok; [exact Hes|discriminate]].
    cbn [file flat_map app]. destruct bad as [|c l]; [cbn in Hlen; lia|]. split; [discriminate|]. cbn [app hd]. intros ->. apply Hn. left. reflexivity. }
  destruct H as (A & B). rewrite process_next by assumption.
  replace fuel with (List.length es + S (fuel - List.length es - 1))%nat by lia.
  destruct (all_turns es cs Hes Hl (S (fuel - List.length es - 1)) (bad ++ 10 :: junk) 0
    (chars "char32_t validUnicodeCodePoints[] = {" ++ endl ++ chars "    ") ltac:(lia) ltac:(lia)) as (n' & out' & _ & _ & E).
  rewrite E. unfold next_turn. rewrite take_line_newline by exact Hn.
  destruct (split_cuts bad semicolon) as (v & Ev & Hv & _).
  { intros ->. cbn in Hlen. lia. }
  { rewrite occurrences_none by exact Hs. lia. }
  rewrite Ev. cbn [bind process_loop]. replace (Z.of_nat (List.length bad) >? 10) with true by lia.
  apply pieces_unique in Hv. rewrite pieces_plain in Hv by exact Hs. subst v. reflexivity.
Qed.

(* ---- any file whose last line ends in a newline ---- *)
Lemma terminated_cut f : newline_terminated f -> f <> [] ->
  exists l rest, f = l ++ 10 :: rest /\ ~ In 10 l /\ newline_terminated rest.
Proof.
  intros [->|(g & ->)] Hne; [contradiction|clear Hne].
  induction g as [|c g IH].
  - exists [], []. split; [reflexivity|]. split; [intros []|left; reflexivity].
  - destruct (Z.eq_dec c 10) as [->|Hc].
    + exists [], (g ++ [10]). split; [reflexivity|]. split; [intros []|right; exists g; reflexivity].
    + destruct IH as (l & rest & E & Hl & Ht). exists (c :: l), rest. cbn [app]. rewrite E.
      split; [reflexivity|]. split; [intros [H|H]; [congruence|contradiction]|exact Ht].
Qed.

Lemma any_turn fuel l fs rest n out :
  process_loop (S fuel) l fs {| unread := rest; good := true |} n out = Done out \/
  process_loop (S fuel) l fs {| unread := rest; good := true |} n out = Undefined \/
  exists n' out', process_loop (S fuel) l fs {| unread := rest; good := true |} n out = next_turn fuel rest n' out'.
Proof.
  cbn [process_loop]. destruct (_ >? 10); [|left; reflexivity]. right. unfold next_turn, getline. cbn [good unread].
  destruct (field fs 1) as [nm| |] eqn:E1; [|left; reflexivity|].
  2:{ unfold field in E1. destruct (nth_error fs 1); discriminate. }
  cbn [bind]. destruct (found _ _ || found _ _).
  - right. exists n, out. destruct (take_line rest) as (l', s). reflexivity.
  - destruct (field fs 0) as [cd| |] eqn:E0; [|left; reflexivity|].
    2:{ unfold field in E0. destruct (nth_error fs 0); discriminate. }
    cbn [bind]. destruct (take_line rest) as (l', s).
    destruct (split l' semicolon) as [v| |]; [|left; reflexivity|].
    + cbn [bind]. unfold int_incr. destruct (n <? 0x7fffffff); [|left; reflexivity]. cbn [bind].
      right. eexists _, _. reflexivity.
    + right. exists n, out. reflexivity.
Qed.

Lemma split_in_fuel l d : split l d <> OutOfFuel.
Proof.
  destruct l as [|c l]; [discriminate|].
  destruct (Z.ltb_spec (occurrences d (c :: l)) 0x80000000) as [H|H].
  - destruct (split_cuts (c :: l) d) as (v & E & _); [discriminate|exact H|]. rewrite E. discriminate.
  - rewrite split_overflow by exact H. discriminate.
Qed.

Lemma turns_end k : forall f, (List.length f <= k)%nat -> newline_terminated f ->
  forall fuel n out, (k < fuel)%nat -> next_turn fuel f n out <> OutOfFuel.
Proof.
  induction k as [|k IH]; intros f Hk Ht fuel n out Hf.
  - destruct f as [|c f]; [|cbn in Hk; lia]. destruct fuel as [|fuel]; [lia|]. discriminate.
  - destruct f as [|c f]; [destruct fuel as [|fuel]; [lia|]; discriminate|].
    destruct (terminated_cut _ Ht ltac:(discriminate)) as (l & rest & E & Hl & Hr). rewrite E in Hk |- *.
    unfold next_turn. rewrite take_line_newline by exact Hl.
    pose proof (split_in_fuel l semicolon) as Hs. destruct (split l semicolon) as [fs| |]; [|discriminate|contradiction].
    cbn [bind]. destruct fuel as [|fuel]; [lia|].
    destruct (any_turn fuel l fs rest n out) as [-> | [-> | (n' & out' & ->)]]; try discriminate.
    apply IH; [|exact Hr|lia]. rewrite app_length in Hk. cbn in Hk. lia.
Qed.

Lemma process_ends f fuel : newline_terminated f -> (List.length f < fuel)%nat -> process fuel f <> OutOfFuel.
Proof.
  intros Ht Hf. destruct f as [|c f]; [discriminate|].
  destruct (Z.eq_dec c 10) as [->|Hc]; [discriminate|].
  rewrite process_next; [|discriminate|exact Hc].
  match goal with |- bind (next_turn ?a ?b ?c ?d) _ <> _ =>
    pose proof (turns_end (List.length b) b ltac:(lia) Ht a c d Hf) as K; destruct (next_turn a b c d) end;
  [discriminate|discriminate|contradiction].
Qed.

(* ---- cases ---- *)
Definition letter : entry := {| code := chars "0041"; name := chars "LATIN CAPITAL LETTER A"; more := chars ";Lu;0" |}.
Definition half : entry := {| code := chars "D800"; name := chars "<Non Private Use High Surrogate, First>"; more := chars ";Cs" |}.
Definition emoji : entry := {| code := chars "1F600"; name := chars "GRINNING FACE"; more := [] |}.

Ltac absent := cbn; intros H; repeat (destruct H as [H|H]; [discriminate|]); exact H.

Lemma three_ok : Forall entry_ok [letter; half; emoji].
Proof.
  repeat apply Forall_cons; [| | |constructor];
    (split; [absent|split; [absent|split; [first [left; reflexivity|right; eexists; reflexivity]|split; [absent|split; reflexivity]]]]).
Qed.

Lemma three_listing : listing [letter; half; emoji] [chars "0041"; chars "1F600"].
Proof.
  apply (listing_keep letter); [split; rewrite <- found_spec; discriminate|].
  apply listing_drop; [intros (H & _); apply H, found_spec; reflexivity|].
  apply (listing_keep emoji); [split; rewrite <- found_spec; discriminate|]. constructor.
Qed.

Lemma no_newline_refuted : exists f, forall fuel out, process fuel f <> Done out.
Proof.
  exists (file [letter; half] ++ line emoji). pose proof three_ok as K.
  inversion K as [|? ? K1 K2]; inversion K2 as [|? ? K3 K4]; inversion K4 as [|? ? K5 K6].
  apply process_stuck; [exact (Forall_cons _ K1 (Forall_cons _ K3 (Forall_nil _)))|cbn; lia|exact K5].
Qed.

Lemma no_semicolon_refuted : exists f, newline_terminated f /\ forall fuel, (List.length f < fuel)%nat -> process fuel f = Undefined.
Proof.
  exists (chars "not a data line" ++ [10]). split; [right; eexists; reflexivity|]. intros fuel Hf.
  apply (process_bad [] [] (chars "not a data line") [] fuel); try constructor; try absent; cbn in Hf |- *; lia.
Qed.
