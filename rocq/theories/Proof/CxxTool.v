(* The text of mkUnicodeTestData does what Model/TestData.v and Model/TestMain.v say. *)
From Coq Require Import ZArith List Bool String Ascii Lia.
From Verif Require Import Machine.
From Verif.Model Require Import SplitJoin TestData TestMain Tables.
From Verif.Cxx Require Import Syntax Semantics FromText Tool ToolParser ToolText.
From Verif.Gen Require TextTool.
From Verif.Spec Require Import Source Text TestData.
From Verif.Proof Require Import Bits SplitFacts TestDataFacts.
Import ListNotations.
Local Open Scope string_scope.
Local Open Scope list_scope.
Local Open Scope Z_scope.

(* ---------------------------------------------------------------- the program *)

Definition tool : list tfun :=
  Eval vm_compute in match parse_tool Wchar32 TextTool.mkUnicodeTestData_cxx with Some P => P | None => [] end.

Lemma tool_text c : parse_tool c TextTool.mkUnicodeTestData_cxx = Some tool.
Proof. destruct c; vm_compute; reflexivity. Qed.

Definition process_fun : tfun := nth 0 tool {| t_name := ""; t_params := []; t_body := YSkip |}.
Definition main_fun : tfun := nth 1 tool {| t_name := ""; t_params := []; t_body := YSkip |}.
Lemma own_tool : tool = [process_fun; main_fun]. Proof. reflexivity. Qed.

(* the loop of process() *)
Fixpoint first_while (y : tstmt) : option (texpr * tstmt) :=
  match y with
  | YWhile c a => Some (c, a)
  | YSeq a b => match first_while a with Some r => Some r | None => first_while b end
  | YIf _ a _ => first_while a
  | _ => None
  end.
Definition the_while : texpr * tstmt :=
  Eval vm_compute in match first_while (t_body process_fun) with Some r => r | None => (XBool true, YSkip) end.
Definition turn_condition : texpr := Eval cbv in fst the_while.
Definition turn : tstmt := Eval cbv in snd the_while.

(* ---------------------------------------------------------------- streams *)

(* what is left to read *)
Definition reading (w : world) (b : buffer) (rest : list Z) : Prop :=
  match b with Reads f n => skipn n (content w f) = rest | Closed => rest = [] | Writes _ _ => False end.

Lemma tput_same e x o : tlook e x = Some o -> tput e x o = e.
Proof.
  induction e as [|(y, p) e IH]; cbn; [discriminate|]. destruct (String.eqb x y); [intros [= ->]; reflexivity|].
  intros H. now rewrite IH.
Qed.
Lemma assign_same s x o : tlook (vars s) x = Some o -> assign s x o = s.
Proof. intros H. unfold assign, with_vars. rewrite tput_same by exact H. now destruct s. Qed.

Lemma tlook_other e x y o : String.eqb x y = false -> tlook (tput e y o) x = tlook e x.
Proof.
  intros N. induction e as [|(z, p) e IH]; cbn; [reflexivity|].
  destruct (String.eqb y z) eqn:E; cbn; [|now rewrite IH].
  apply String.eqb_eq in E. subst z. now rewrite N.
Qed.

Lemma one_line_take l : let '(line, k, more) := one_line l in take_line l = (line, {| unread := skipn k l; good := more |}).
Proof.
  induction l as [|c l IH]; cbn [one_line take_line]; [reflexivity|].
  destruct (c =? 10); [reflexivity|]. destruct (one_line l) as ((line & k) & more). rewrite IH. reflexivity.
Qed.

Lemma skipn_skipn' {A} n k (l : list A) : skipn (n + k) l = skipn k (skipn n l).
Proof. rewrite Nat.add_comm. revert l; induction n as [|n IH]; intros l; [now rewrite Nat.add_0_r|]. rewrite Nat.add_succ_r. destruct l; [now rewrite !skipn_nil|]. apply IH. Qed.

(* the buffer after getline *)
Definition moved (w : world) (b : buffer) (g : bool) : buffer :=
  match b, g with Reads f n, true => Reads f (n + snd (fst (one_line (skipn n (content w f))))) | b, _ => b end.

Lemma moved_reading w b g str rest : reading w b rest -> reading w (moved w b g) (unread (snd (getline {| unread := rest; good := g |} str))).
Proof.
  intros Hr. unfold getline, moved. cbn [good unread]. destruct b as [|f n|f d]; [| |destruct Hr].
  - cbn in Hr. subst rest. destruct g; reflexivity.
  - destruct g; [|exact Hr]. cbn in Hr. pose proof (one_line_take (skipn n (content w f))) as E.
    destruct (one_line (skipn n (content w f))) as ((line & k) & more) eqn:E1.
    rewrite Hr in E. rewrite E. cbn [fst snd unread reading]. rewrite skipn_skipn', Hr. reflexivity.
Qed.

Lemma get_line_getline s b str rest g : tlook (vars s) "inStream" = Some (OInput "inbuf" g) ->
  tlook (vars s) "oneLine" = Some (OValue (VS Char str)) -> tlook (vars s) "inbuf" = Some (OBuffer b) -> reading (files s) b rest ->
  exists o, get_line s "inStream" "oneLine" =
    Done (o, assign (assign (assign s "inbuf" (OBuffer (moved (files s) b g)))
                       "inStream" (OInput "inbuf" (good (snd (getline {| unread := rest; good := g |} str)))))
               "oneLine" (OValue (VS Char (fst (getline {| unread := rest; good := g |} str))))).
Proof.
  intros Hs Hl Hb Hr. unfold get_line. rewrite Hs, Hl. unfold getline, moved. cbn [good unread].
  destruct g; cbn [negb].
  - rewrite Hb. destruct b as [|f n|f d]; [| |destruct Hr].
    + cbn in Hr. subst rest. cbn [take_line fst snd good]. eexists.
      rewrite (assign_same s "inbuf") by exact Hb. reflexivity.
    + pose proof (one_line_take (skipn n (content (files s) f))) as E.
      destruct (one_line (skipn n (content (files s) f))) as ((line & k) & more).
      cbn in Hr. rewrite Hr in E. rewrite E. cbn [fst snd unread good]. eexists. reflexivity.
  - cbn [fst snd unread good]. exists (OInput "inbuf" false).
    replace (match b with Closed => b | Reads _ _ => b | Writes _ _ => b end) with b by now destruct b.
    rewrite (assign_same s "inbuf") by exact Hb. rewrite (assign_same s "inStream") by exact Hs. rewrite (assign_same s "oneLine") by exact Hl.
    reflexivity.
Qed.

(* ---------------------------------------------------------------- searching *)

Lemma begins_starts n l : begins n l = starts_with n l.
Proof. revert l; induction n as [|x n IH]; intros [|y l]; cbn; rewrite ?IH; reflexivity. Qed.

Lemma search_found n l k : 0 <= k -> k + size l < npos -> (search n l k =? npos) = negb (found n l).
Proof.
  revert k. induction l as [|x l IH]; intros k Hk Hb; cbn [search found]; rewrite begins_starts.
  - unfold size in Hb. cbn [List.length] in Hb. destruct (starts_with n []); cbn [orb negb]; lia.
  - unfold size in *. cbn [List.length] in Hb. rewrite Nat2Z.inj_succ in Hb.
    destruct (starts_with n (x :: l)); cbn [orb negb]; [lia|]. apply IH; lia.
Qed.

Lemma search_bounds n l k : 0 <= k -> k + size l < npos -> 0 <= search n l k <= npos.
Proof.
  revert k. induction l as [|x l IH]; intros k Hk Hb; cbn [search].
  - unfold size in Hb. cbn [List.length] in Hb. destruct (begins n []); unfold npos in *; lia.
  - unfold size in *. cbn [List.length] in Hb. rewrite Nat2Z.inj_succ in Hb.
    destruct (begins n (x :: l)); [unfold npos in *; lia|]. apply IH; lia.
Qed.

(* ---------------------------------------------------------------- one turn of the loop *)

Section Turns.
Context (I : implementation) (R : calls) (F : own_calls).
Context (no_getline : forall os s, F "getline" os s = None) (no_split : forall os s, F "split" os s = None).

(* the library splits [l] as the model does *)
Definition handled (l : list Z) : Prop :=
  (do r <- R "split" [VS Char l; VI Char (norm I Char 59)]; Done (fst r)) = strings_of Char (split l 59).

Definition st (w : world) (err : list Z) (inb : buffer) (g : bool) (outb : buffer) (l : list Z) (fs : list (list Z)) (n : Z) : state :=
  {| vars := [("nCount", OValue (VI Int n)); ("fields", OValue (VVec Char fs)); ("oneLine", OValue (VS Char l)); ("outStream", OOutput "outbuf");
              ("inStream", OInput "inbuf" g); ("inbuf", OBuffer inb); ("outbuf", OBuffer outb)];
     files := w; errors := err |}.

(* what has been written to an open file *)
Definition holding (b : buffer) (d : list Z) : buffer := match b with Writes f _ => Writes f d | b => b end.

Lemma norm_size z : 0 <= z < 2 ^ 64 -> norm I Size z = z.
Proof. intros H. unfold norm. cbn [is_signed width]. apply Z.mod_small; lia. Qed.
Lemma norm_int z : - 2 ^ 31 <= z < 2 ^ 31 -> norm I Int z = z.
Proof. intros H. unfold norm. cbn [is_signed width]. rewrite Z.mod_small; lia. Qed.

Lemma call_split args l s : handled l ->
  call_of R F "split" args [OValue (VS Char l); OValue (VI Char (norm I Char 59))] s = do fs <- split l 59; Done (OValue (VVec Char fs), s).
Proof.
  intros H. unfold call_of. rewrite no_split. cbn [String.eqb Ascii.eqb Bool.eqb values_of value_of bind].
  unfold handled, strings_of in H. destruct (R "split" _) as [(r, o)| |]; destruct (split l 59); cbn in *; try discriminate H; [|reflexivity..].
  injection H as ->. reflexivity.
Qed.


Lemma index_field fs i : index_of I (VVec Char fs) (VI Int (Z.of_nat i)) = do f <- TestData.field fs i; Done (VS Char f).
Proof.
  unfold index_of, element, TestData.field. cbn [int_of bind snd]. destruct (Z.ltb_spec (Z.of_nat i) 0); [lia|].
  rewrite Nat2Z.id. destruct (nth_error fs i); reflexivity.
Qed.

(* within a turn *)
Definition sx (a p : Z) (w : world) (err : list Z) (inb : buffer) (g : bool) (outb : buffer) (l : list Z) (fs : list (list Z)) (n : Z) : state :=
  with_vars (st w err inb g outb l fs n) (("privateN", OValue (VI Size p)) :: ("surrogateN", OValue (VI Size a)) :: vars (st w err inb g outb l fs n)).

Ltac go := cbn -[get_line search norm split getline found size npos bits index_of remainder increment holding moved literal call_of write int_incr Z.modulo endl].

Lemma bind_done {A} (m : outcome A) : (do x <- m; Done x) = m.
Proof. now destruct m. Qed.

Lemma do_getline k a p w err inb g outb l fs n rest l' s' :
  reading w inb rest -> getline {| unread := rest; good := g |} l = (l', s') ->
  texec I R F k (YExpr (XCall "getline" [XName "inStream"; XName "oneLine"])) (sx a p w err inb g outb l fs n) =
  Done (Onwards, sx a p w err (moved w inb g) (good s') outb l' fs n).
Proof.
  intros Hr Hg. unfold sx, st. go. unfold call_of. rewrite no_getline. go.
  match goal with |- context [get_line ?s _ _] =>
    destruct (get_line_getline s inb l rest g) as (o & E); [reflexivity..|exact Hr|]; rewrite E
  end. rewrite Hg. reflexivity.
Qed.

Lemma do_split k a p w err inb g outb l fs n : handled l ->
  texec I R F k (YExpr (XAssign "fields" (XCall "split" [XName "oneLine"; XChar 59]))) (sx a p w err inb g outb l fs n) =
  do fs' <- split l 59; Done (Onwards, sx a p w err inb g outb l fs' n).
Proof. intros H. unfold sx, st. go. rewrite call_split by exact H. destruct (split l 59); reflexivity. Qed.

Lemma write_holding s b out more : tlook (vars s) "outbuf" = Some (OBuffer (holding b out)) ->
  write s (OOutput "outbuf") more = Done (assign s "outbuf" (OBuffer (holding b (out ++ more)))).
Proof.
  intros H. unfold write. rewrite H. destruct b; cbn [holding] in *; [rewrite assign_same by exact H; reflexivity..|reflexivity].
Qed.

Lemma comma : bits Char (norm I Char 44) = 44.
Proof. unfold norm. cbn [is_signed]. destruct (char_signed I); reflexivity. Qed.

Lemma do_code k a p w err inb g b out l fs n :
  texec I R F k (YExpr (XBin Shl (XBin Shl (XBin Shl (XName "outStream") (XText [32; 48; 120])) (XIndex (XName "fields") (XInt 0))) (XChar 44)))
    (sx a p w err inb g (holding b out) l fs n) =
  do code <- TestData.field fs 0; Done (Onwards, sx a p w err inb g (holding b (out ++ literal " 0x" ++ code ++ literal ",")) l fs n).
Proof.
  unfold sx, st. go. erewrite write_holding by reflexivity. go.
  change 0 with (Z.of_nat 0) at 1. rewrite index_field. destruct (TestData.field fs 0) as [c| |]; [|reflexivity..].
  cbn [bind]. go. erewrite write_holding by reflexivity. go. rewrite comma. erewrite write_holding by reflexivity.
  rewrite <- !app_assoc. reflexivity.
Qed.

Lemma do_count k a p w err inb g outb l fs n : 0 <= n <= 0x7fffffff ->
  texec I R F k (YExpr (XPreInc "nCount")) (sx a p w err inb g outb l fs n) =
  do n' <- int_incr n; Done (Onwards, sx a p w err inb g outb l fs n').
Proof.
  intros Hn. unfold sx, st. go. unfold increment, int_bin, int_incr, result.
  cbn [common promote is_signed]. rewrite !norm_int by lia. unfold fits. cbn [is_signed width].
  destruct (Z.ltb_spec n 0x7fffffff).
  - replace ((- 2 ^ (32 - 1) <=? n + 1) && (n + 1 <? 2 ^ (32 - 1))) with true by lia. cbn [bind int_of fst snd]. rewrite norm_int by lia. reflexivity.
  - replace ((- 2 ^ (32 - 1) <=? n + 1) && (n + 1 <? 2 ^ (32 - 1))) with false by lia. reflexivity.
Qed.

Lemma rem_mod n : 0 <= n -> Z.rem n 10 = n mod 10.
Proof. intros H. apply Z.rem_mod_nonneg; lia. Qed.

Lemma remainder_ten n : 0 <= n <= 0x7fffffff -> remainder I Int n Int 10 = Done (VI Int (n mod 10)).
Proof.
  intros Hn. unfold remainder. cbn [common promote]. rewrite !norm_int by lia. change (10 =? 0) with false. cbv iota.
  rewrite rem_mod by lia. unfold result, fits. cbn [is_signed width]. pose proof (Z.mod_pos_bound n 10).
  replace ((- 2 ^ (32 - 1) <=? n mod 10) && (n mod 10 <? 2 ^ (32 - 1))) with true by lia. reflexivity.
Qed.

Lemma do_rows k a p w err inb g b out l fs n : size l < 2 ^ 63 -> 0 <= n <= 0x7fffffff ->
  texec I R F k
    (YIf (XAnd (XBin Ne (XMeth (XName "oneLine") "size" []) (XInt 0)) (XBin Eq (XRem (XName "nCount") (XInt 10)) (XInt 0)))
       (YExpr (XBin Shl (XBin Shl (XName "outStream") (XName "endl")) (XText [32; 32; 32]))) YSkip)
    (sx a p w err inb g (holding b out) l fs n) =
  Done (Onwards, sx a p w err inb g
    (holding b (if negb (Z.of_nat (List.length l) =? 0) && (n mod 10 =? 0) then out ++ endl ++ literal "   " else out)) l fs n).
Proof.
  intros Hl Hn. assert (0 <= size l) by (unfold size; lia).
  unfold sx, st. cbn [texec]. unfold holds_true. go.
  rewrite !norm_size by lia. change (size l) with (Z.of_nat (List.length l)).
  destruct (Z.of_nat (List.length l) =? 0); go; [reflexivity|].
  rewrite remainder_ten by exact Hn. go. pose proof (Z.mod_pos_bound n 10).
  rewrite !norm_int by lia. destruct (n mod 10 =? 0); [|reflexivity].
  unfold in_block. go. erewrite write_holding by reflexivity. go. erewrite write_holding by reflexivity. rewrite <- !app_assoc. reflexivity.
Qed.

Lemma t_seq k a b s : texec I R F k (YSeq a b) s = do (r, s) <- texec I R F k a s; match r with Onwards => texec I R F k b s | _ => Done (r, s) end.
Proof. reflexivity. Qed.
Lemma t_if k c a b s : texec I R F k (YIf c a b) s =
  do (d, s) <- holds_true I R F c s; if d then in_block (texec I R F k a) s else in_block (texec I R F k b) s.
Proof. reflexivity. Qed.

Lemma do_finds k w err inb g outb l fs n needle x s : vars s = (x ++ vars (st w err inb g outb l fs n))%list -> forallb (fun v => negb (String.eqb "fields" (fst v))) x = true ->
  forall y, texec I R F k (YDecl "auto" y (Some (XMeth (XIndex (XName "fields") (XInt 1)) "find" [XText needle]))) s =
  do nm <- TestData.field fs 1; Done (Onwards, declare s y (OValue (VI Size (search needle nm 0)))).
Proof.
  intros Hv Hx y.
  assert (E : tlook (vars s) "fields" = Some (OValue (VVec Char fs))).
  { rewrite Hv. clear Hv. induction x as [|(z, o) x IH]; [reflexivity|]. cbn [forallb fst] in Hx. apply andb_true_iff in Hx. destruct Hx as (Hz & Hx).
    cbn [app tlook]. destruct (String.eqb "fields" z); [discriminate Hz|]. exact (IH Hx). }
  cbn [texec teval]. unfold name_value. rewrite E. cbn [bind value_of literal_type Z.compare Pos.compare Pos.compare_cont].
  change 1 with (Z.of_nat 1). rewrite index_field. destruct (TestData.field fs 1) as [nm| |]; reflexivity.
Qed.

Lemma turn_does k w err inb g b out l fs n rest l' s' :
  reading w inb rest -> getline {| unread := rest; good := g |} l = (l', s') ->
  handled l' -> size l' < 2 ^ 63 -> (forall x, In x fs -> size x < 2 ^ 63) -> 0 <= n <= 0x7fffffff ->
  in_block (texec I R F k turn) (st w err inb g (holding b out) l fs n) =
  do name <- TestData.field fs 1;
  if found (literal "Surrogate") name || found (literal "Private") name then
    do fs' <- split l' 59; Done (Continued, st w err (moved w inb g) (good s') (holding b out) l' fs' n)
  else
    do code <- TestData.field fs 0;
    do fs' <- split l' 59;
    do n' <- int_incr n;
    let out := out ++ literal " 0x" ++ code ++ literal "," in
    Done (Onwards, st w err (moved w inb g) (good s')
      (holding b (if negb (Z.of_nat (List.length l') =? 0) && (n' mod 10 =? 0) then out ++ endl ++ literal "   " else out)) l' fs' n').
Proof.
  intros Hr Hg Hh Hl' Hfs Hn. unfold in_block, turn.
  rewrite t_seq, (do_finds k w err inb g (holding b out) l fs n _ []) by reflexivity.
  destruct (TestData.field fs 1) as [nm| |] eqn:E1; cbn [bind]; [|reflexivity..].
  rewrite t_seq, (do_finds k w err inb g (holding b out) l fs n _ [("surrogateN", OValue (VI Size (search [83; 117; 114; 114; 111; 103; 97; 116; 101] nm 0)))]) by reflexivity.
  rewrite E1. cbn [bind].
  change (declare (declare (st w err inb g (holding b out) l fs n) "surrogateN" (OValue (VI Size (search [83; 117; 114; 114; 111; 103; 97; 116; 101] nm 0))))
    "privateN" (OValue (VI Size (search [80; 114; 105; 118; 97; 116; 101] nm 0)))) with
    (sx (search (literal "Surrogate") nm 0) (search (literal "Private") nm 0) w err inb g (holding b out) l fs n).
  assert (Hnm : size nm < 2 ^ 63).
  { apply Hfs. unfold TestData.field in E1. destruct (nth_error fs 1) as [x|] eqn:E; [|discriminate]. injection E1 as ->. now apply nth_error_In in E. }
  assert (Hz : 0 + size nm < npos) by (unfold npos; lia).
  rewrite t_seq, t_if.
  assert (Hc : holds_true I R F (XOr (XBin Ne (XName "surrogateN") XNpos) (XBin Ne (XName "privateN") XNpos))
    (sx (search (literal "Surrogate") nm 0) (search (literal "Private") nm 0) w err inb g (holding b out) l fs n) =
    Done (found (literal "Surrogate") nm || found (literal "Private") nm,
          sx (search (literal "Surrogate") nm 0) (search (literal "Private") nm 0) w err inb g (holding b out) l fs n)).
  { unfold holds_true. unfold sx, st. go.
    pose proof (search_bounds (literal "Surrogate") nm 0 ltac:(lia) Hz). pose proof (search_bounds (literal "Private") nm 0 ltac:(lia) Hz).
    rewrite !norm_size by (unfold npos in *; lia).
    rewrite !search_found by (try exact Hz; lia). rewrite !negb_involutive. destruct (found (literal "Surrogate") nm); go; reflexivity. }
  rewrite Hc. cbn [bind]. clear Hc.
  set (A := search (literal "Surrogate") nm 0). set (P := search (literal "Private") nm 0).
  destruct (found (literal "Surrogate") nm || found (literal "Private") nm).
  - unfold in_block at 1. rewrite t_seq, (do_getline k A P w err inb g _ l fs n rest l' s' Hr Hg). cbn [bind].
    rewrite t_seq, do_split by exact Hh. destruct (split l' 59) as [fs'| |]; reflexivity.
  - change (in_block (texec I R F k YSkip) (sx A P w err inb g (holding b out) l fs n)) with (Done (Onwards, sx A P w err inb g (holding b out) l fs n)).
    cbn [bind].
    rewrite t_seq, do_code. destruct (TestData.field fs 0) as [c| |]; cbn [bind]; [|reflexivity..].
    rewrite t_seq, (do_getline k A P w err inb g _ l fs n rest l' s' Hr Hg). cbn [bind].
    rewrite t_seq, do_split by exact Hh. destruct (split l' 59) as [fs'| |]; cbn [bind]; [|reflexivity..].
    rewrite t_seq, do_count by exact Hn. unfold int_incr. destruct (n <? 0x7fffffff) eqn:En; cbn [bind]; [|reflexivity].
    rewrite do_rows by (exact Hl' || lia). reflexivity.
Qed.

(* ---------------------------------------------------------------- all turns *)

Lemma pieces_short d s x : In x (pieces d s) -> (List.length x <= List.length s)%nat.
Proof.
  revert x. induction s as [|y s IH]; intros x; cbn [pieces].
  - intros [<-|[]]. reflexivity.
  - destruct (y =? d).
    + intros [<-|H]; cbn; [lia|]. specialize (IH x H). lia.
    + destruct (pieces d s) as [|p v]; [intros [<-|[]]; cbn; lia|].
      intros [<-|H]; cbn [List.length]; [specialize (IH p (or_introl eq_refl)); lia | specialize (IH x (or_intror H)); lia].
Qed.
Lemma fields_short s d fs x : split s d = Done fs -> In x fs -> size x <= size s.
Proof.
  destruct s as [|y s]; [intros [= <-] []|]. rewrite split_spec by discriminate.
  destruct (_ <? _); [|discriminate]. intros E H. assert (Ef : fs = pieces d (y :: s)) by (now inversion E). subst fs. apply pieces_short in H. unfold size. lia.
Qed.

Definition infix (x l : list Z) : Prop := exists a b, l = a ++ x ++ b.
Lemma infix_refl l : infix l l. Proof. exists [], []. now rewrite app_nil_r. Qed.
Lemma infix_nil l : infix [] l. Proof. exists [], l. reflexivity. Qed.
Lemma infix_size x l : infix x l -> size x <= size l.
Proof. intros (a & b & ->). unfold size. rewrite !app_length. lia. Qed.
Lemma infix_part x y l : infix (x ++ y) l -> infix x l /\ infix y l.
Proof. intros (a & b & ->). split; [exists a, (y ++ b) | exists (a ++ x), b]; now rewrite <- !app_assoc. Qed.

Lemma take_line_parts l : exists sep, l = fst (take_line l) ++ sep ++ unread (snd (take_line l)).
Proof.
  induction l as [|c l (sep & IH)]; cbn [take_line]; [exists []; reflexivity|].
  destruct (Z.eqb_spec c 10) as [->|_]; [exists [10]; reflexivity|].
  destruct (take_line l) as (line & s). exists sep. cbn [fst snd] in *. cbn [app]. now rewrite <- IH.
Qed.
Lemma getline_infix f rest g l l' s' : infix rest f -> infix l f -> getline {| unread := rest; good := g |} l = (l', s') ->
  infix l' f /\ infix (unread s') f.
Proof.
  intros Hr Hl. unfold getline. cbn [good unread]. destruct g; [|intros [= <- <-]; now split].
  intros E. pose proof (take_line_parts rest) as (sep & H). rewrite E in H. cbn [fst snd] in H.
  rewrite H in Hr. apply infix_part in Hr. destruct Hr as (H1 & H2). apply infix_part in H2. now split.
Qed.

Context (file : list Z) (file_handled : forall x, infix x file -> handled x) (file_size : size file < 2 ^ 63).

Lemma condition_does w err inb g outb l fs n : size l < 2 ^ 63 ->
  holds_true I R F turn_condition (st w err inb g outb l fs n) = Done (Z.of_nat (List.length l) >? 10, st w err inb g outb l fs n).
Proof.
  intros Hl. assert (0 <= size l) by (unfold size; lia). unfold holds_true, turn_condition, st. go. rewrite !norm_size by lia. reflexivity.
Qed.

Lemma reading_close w b rest : reading w b rest -> forall w', close b w' = w'.
Proof. destruct b; [reflexivity..|intros []]. Qed.

Lemma loop_does j w err b : forall k inb g out l fs n rest, reading w inb rest -> infix rest file -> infix l file -> split l 59 = Done fs ->
  0 <= n <= 0x7fffffff ->
  match process_loop k l fs {| unread := rest; good := g |} n out with
  | Done out' => exists inb' g' l' fs' n', (forall w', close inb' w' = w') /\
      rounds_of k (holds_true I R F turn_condition) (in_block (texec I R F j turn)) (st w err inb g (holding b out) l fs n) =
      Done (Onwards, st w err inb' g' (holding b out') l' fs' n')
  | Undefined => rounds_of k (holds_true I R F turn_condition) (in_block (texec I R F j turn)) (st w err inb g (holding b out) l fs n) = Undefined
  | OutOfFuel => rounds_of k (holds_true I R F turn_condition) (in_block (texec I R F j turn)) (st w err inb g (holding b out) l fs n) = OutOfFuel
  end.
Proof.
  induction k as [|k IH]; intros inb g out l fs n rest Hr Hi Hl Hs Hn; [reflexivity|]. cbn [process_loop rounds_of].
  pose proof (infix_size _ _ Hl) as Sl. rewrite condition_does by lia. cbn [bind].
  destruct (Z.of_nat (List.length l) >? 10); [|exists inb, g, l, fs, n; split; [exact (reading_close _ _ _ Hr)|reflexivity]].
  destruct (getline {| unread := rest; good := g |} l) as (l', s') eqn:Hg.
  destruct (getline_infix _ _ _ _ _ _ Hi Hl Hg) as (Hl' & Hi'). pose proof (infix_size _ _ Hl') as Sl'.
  rewrite (turn_does j w err inb g b out l fs n rest l' s' Hr Hg (file_handled _ Hl')) by
    (try exact Hn; try lia; intros x Hx; pose proof (fields_short _ _ _ _ Hs Hx); lia).
  pose proof (moved_reading w inb g l rest Hr) as Hm. rewrite Hg in Hm. cbn [snd] in Hm.
  destruct (TestData.field fs 1) as [nm| |]; cbn [bind]; [|reflexivity..].
  change semicolon with 59.
  destruct (found (literal "Surrogate") nm || found (literal "Private") nm).
  - destruct (split l' 59) as [fs'| |] eqn:Es; cbn [bind]; [|reflexivity..].
    destruct s' as [rest' g']. exact (IH _ g' out l' fs' n rest' Hm Hi' Hl' Es Hn).
  - destruct (TestData.field fs 0) as [c| |]; cbn [bind]; [|reflexivity..].
    destruct (split l' 59) as [fs'| |] eqn:Es; cbn [bind]; [|reflexivity..].
    unfold int_incr. destruct (Z.ltb_spec n 0x7fffffff); cbn [bind]; [|reflexivity].
    destruct s' as [rest' g']. apply (IH _ g' _ l' fs' (n + 1) rest' Hm Hi' Hl' Es). lia.
Qed.

(* ---------------------------------------------------------------- process() *)

(* what process() leaves to its caller *)
Definition after (s : state) (inb outb : buffer) (out : list Z) : state :=
  {| vars := [("inbuf", OBuffer inb); ("outbuf", OBuffer Closed)]; files := close (holding outb out) (files s); errors := errors s |}.

Definition processed (s s0 : state) (outb : buffer) (p : outcome (list Z)) (m : outcome (tending * state)) : Prop :=
  match p with
  | Done out => exists inb' e, (forall w', close inb' w' = w') /\ m = Done (Onwards, e) /\ tleave s0 e = after s inb' outb out
  | Undefined => m = Undefined
  | OutOfFuel => m = OutOfFuel
  end.

Lemma process_does k s inb outb : reading (files s) inb file -> holding outb [] = outb ->
  processed s (with_vars s [("inbuf", OBuffer inb); ("outbuf", OBuffer outb)]) outb (process k file)
    (texec I R F k (t_body process_fun) (with_vars s [("inbuf", OBuffer inb); ("outbuf", OBuffer outb)])).
Proof.
  intros Hr Ho. unfold process_fun, tool. cbn [nth t_body].
  set (s0 := with_vars s [("inbuf", OBuffer inb); ("outbuf", OBuffer outb)]).
  set (s1 := declare (declare (declare s0 "inStream" (OInput "inbuf" true)) "outStream" (OOutput "outbuf")) "oneLine" (OValue (VS Char []))).
  rewrite t_seq. change (texec I R F k (YNew "istream" "inStream" [XAddress "inbuf"]) s0) with (Done (Onwards, declare s0 "inStream" (OInput "inbuf" true))).
  cbn [bind]. rewrite t_seq.
  match goal with |- context [texec I R F k (YNew "ostream" "outStream" [XAddress "outbuf"]) ?x] =>
    change (texec I R F k (YNew "ostream" "outStream" [XAddress "outbuf"]) x) with (Done (Onwards, declare x "outStream" (OOutput "outbuf"))) end.
  cbn [bind]. rewrite t_seq.
  match goal with |- context [texec I R F k (YDecl "string" "oneLine" None) ?x] =>
    change (texec I R F k (YDecl "string" "oneLine" None) x) with (Done (Onwards, s1)) end.
  cbn [bind]. rewrite t_seq.
  unfold process. destruct (getline {| unread := file; good := true |} []) as (l, [rest' g']) eqn:Hg.
  destruct (getline_infix file file true [] l _ (infix_refl _) (infix_nil _) Hg) as (Hl & Hi).
  set (s2 := fun fs => {| vars := tl (vars (st (files s) (errors s) (moved (files s) inb true) g' outb l fs 0)); files := files s; errors := errors s |}).
  assert (E2 : texec I R F k (YExpr (XCall "getline" [XName "inStream"; XName "oneLine"])) s1 =
    Done (Onwards, {| vars := tl (vars (s2 [])); files := files s; errors := errors s |})).
  { unfold s1, s2, s0, st, declare. go. unfold call_of. rewrite no_getline. go.
    match goal with |- context [get_line ?s _ _] =>
      destruct (get_line_getline s inb [] file true) as (o & E); [reflexivity..|exact Hr|]; rewrite E
    end. rewrite Hg. reflexivity. }
  rewrite E2. cbn [bind]. clear E2. rewrite t_seq.
  assert (E3 : texec I R F k (YDecl "auto" "fields" (Some (XCall "split" [XName "oneLine"; XChar 59])))
     {| vars := tl (vars (s2 [])); files := files s; errors := errors s |} = do fs <- split l 59; Done (Onwards, s2 fs)).
  { unfold s2, st. go. rewrite call_split by (apply file_handled, Hl). destruct (split l 59); reflexivity. }
  rewrite E3. clear E3. change semicolon with 59. destruct (split l 59) as [fs| |] eqn:Es; cbn [bind]; [|reflexivity..].
  rewrite t_seq, t_if.
  replace (holds_true I R F (XNot (XMeth (XName "fields") "empty" [])) (s2 fs)) with (Done (negb (match fs with [] => true | _ => false end), s2 fs))
    by (unfold s2, st, holds_true; destruct fs; reflexivity).
  cbn [bind].
  assert (End : forall ib g o l' fs', (forall w', close ib w' = w') -> exists inb' e, (forall w', close inb' w' = w') /\
     texec I R F k (YExpr (XMeth (XName "outbuf") "close" []))
       {| vars := tl (vars (st (files s) (errors s) ib g (holding outb o) l' fs' 0)); files := files s; errors := errors s |} = Done (Onwards, e) /\
     tleave s0 e = after s inb' outb o).
  { intros * Hc. exists ib. eexists. split; [exact Hc|]. split; [reflexivity|]. unfold tleave, s0, after. reflexivity. }
  pose proof (moved_reading (files s) inb true [] file Hr) as Hm. rewrite Hg in Hm. cbn [snd] in Hm.
  cbn [unread] in Hm, Hi.
  destruct fs as [|f0 fs]; cbn [negb].
  - change (in_block (texec I R F k YSkip) (s2 [])) with (Done (Onwards, s2 [])). cbn [bind].
    pose proof (End (moved (files s) inb true) g' [] l [] (reading_close _ _ _ Hm)) as E. rewrite Ho in E. exact E.
  - set (fs1 := f0 :: fs) in *. unfold in_block at 1. rewrite t_seq.
    assert (Eh : texec I R F k (YExpr (XBin Shl (XBin Shl (XBin Shl (XName "outStream") (XText (literal "char32_t validUnicodeCodePoints[] = {"))) (XName "endl")) (XText (literal "    "))))
       (s2 fs1) = Done (Onwards, {| vars := tl (vars (st (files s) (errors s) (moved (files s) inb true) g'
                          (holding outb (literal "char32_t validUnicodeCodePoints[] = {" ++ endl ++ literal "    ")) l fs1 0)); files := files s; errors := errors s |})).
    { unfold s2. rewrite <- Ho at 1. unfold st. go. erewrite write_holding by reflexivity. go. erewrite write_holding by reflexivity. go.
      erewrite write_holding by reflexivity. rewrite <- !app_assoc. reflexivity. }
    match type of Eh with texec _ _ _ _ ?a _ = _ => let a' := eval vm_compute in a in change a with a' in Eh end.
    rewrite Eh. cbn [bind]. clear Eh. rewrite t_seq.
    match goal with |- context [texec I R F k (YDecl "int" "nCount" (Some (XInt 0))) ?x] =>
      replace (texec I R F k (YDecl "int" "nCount" (Some (XInt 0))) x) with (Done (Onwards, declare x "nCount" (OValue (VI Int 0)))) end.
    2:{ go. rewrite norm_int by lia. reflexivity. }
    cbn [bind]. rewrite t_seq.
    set (hd := literal "char32_t validUnicodeCodePoints[] = {" ++ endl ++ literal "    ").
    match goal with |- context [texec I R F k (YWhile ?c ?a) ?x] =>
      change (texec I R F k (YWhile c a) x) with
        (rounds_of k (holds_true I R F turn_condition) (in_block (texec I R F k turn)) (st (files s) (errors s) (moved (files s) inb true) g' (holding outb hd) l fs1 0)) end.
    pose proof (loop_does k (files s) (errors s) outb k (moved (files s) inb true) g' hd l fs1 0 rest' Hm Hi Hl Es ltac:(lia)) as L.
    destruct (process_loop k l fs1 {| unread := rest'; good := g' |} 0 hd) as [out| |]; cbn [bind]; [|now rewrite L..].
    destruct L as (inb' & g2 & l2 & fs2 & n2 & Hc & ->). cbn [bind].
    match goal with |- context [texec I R F k ?a (st _ _ _ _ _ _ _ _)] =>
      assert (Ef : texec I R F k a (st (files s) (errors s) inb' g2 (holding outb out) l2 fs2 n2) =
        Done (Onwards, st (files s) (errors s) inb' g2 (holding outb (out ++ literal " 0xFFFFFFFF };" ++ endl)) l2 fs2 n2)) end.
    { unfold st. go. erewrite write_holding by reflexivity. go. erewrite write_holding by reflexivity. rewrite <- !app_assoc. reflexivity. }
    rewrite Ef. cbn [bind]. apply End, Hc.
Qed.
End Turns.
