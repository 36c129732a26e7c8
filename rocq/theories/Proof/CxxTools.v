(* Running the parsed source symbolically: lemmas about the semantics of Cxx/Semantics.v, and tactics. *)
From Coq Require Import ZArith List Bool String Lia.
From Verif Require Import Machine.
From Verif.Model Require Import Tables.
From Verif.Cxx Require Import Syntax Semantics Configurations Program Values.
From Verif.Gen Require Import Source.
From Verif.Proof Require Import Bits.
Import ListNotations.
Local Open Scope string_scope.
Local Open Scope list_scope.
Local Open Scope Z_scope.

Definition funs (I : implementation) : list fundef := functions (configured I) ++ p_decls source.

(* ---------------------------------------------------------------- the globals, computed *)

Definition constants : list (string * value) :=
  Eval vm_compute in globals {| char_signed := true; pointer_checks := true; configured := Wchar32 |} source.

Definition G0 (T : UnicodeTables) : list (string * value) :=
  ("supportedUnicodeVersion", VS Char (text (t_version T))) :: constants.

Lemma G_computed I T : G I T = G0 T.
Proof. destruct I as [[|] [|] c]; reflexivity. Qed.

Lemma call_0 I T fuel f vs : call I T fuel 0 f vs = OutOfFuel.
Proof. reflexivity. Qed.

Lemma call_S I T fuel d f vs :
  call I T fuel (S d) f vs =
  match external T f vs with
  | Some v => Done (v, map (fun _ => None) vs)
  | None =>
    match select (funs I) f vs with
    | Some c => invoke I (G0 T) (call I T fuel d) fuel c vs
    | None => Undefined
    end
  end.
Proof. unfold call. cbn [run]. rewrite G_computed. reflexivity. Qed.

(* ---------------------------------------------------------------- binding *)

Lemma bind_done {A B} (a : A) (k : A -> outcome B) : bind (Done a) k = k a.
Proof. reflexivity. Qed.

Lemma bind_bind {A B C} (m : outcome A) (k : A -> outcome B) (h : B -> outcome C) :
  bind (bind m k) h = bind m (fun x => bind (k x) h).
Proof. destruct m; reflexivity. Qed.

Lemma bind_if {A B} (b : bool) (x y : outcome A) (k : A -> outcome B) :
  bind (if b then x else y) k = if b then bind x k else bind y k.
Proof. destruct b; reflexivity. Qed.

(* ---------------------------------------------------------------- statements, one constructor at a time *)
Section Statements.
Context (I : implementation) (R : calls) (g : list (string * value)) (fuel : nat).

Lemma exec_seq a b e :
  exec I R g fuel (SSeq a b) e =
  do (r, e) <- exec I R g fuel a e; match r with Next => exec I R g fuel b e | _ => Done (r, e) end.
Proof. reflexivity. Qed.
Lemma exec_skip e : exec I R g fuel SSkip e = Done (Next, e).
Proof. reflexivity. Qed.
Lemma exec_expr a e : exec I R g fuel (SExpr a) e = do (_, e) <- eval I R g a e; Done (Next, e).
Proof. reflexivity. Qed.
Lemma exec_decl t x a e :
  exec I R g fuel (SDecl t x (Some a)) e =
  do (v, e) <- eval I R g a e; do w <- convert I (type_c e) t v; Done (Next, (x, Var w) :: e).
Proof. reflexivity. Qed.
Lemma exec_decl_none t x e :
  exec I R g fuel (SDecl t x None) e =
  match t with
  | TStr _ | TStrC | TVec | TList | TPred => do v <- construct I (type_c e) t []; Done (Next, (x, Var v) :: e)
  | _ => Done (Next, (x, Var VUnset) :: e)
  end.
Proof. reflexivity. Qed.
Lemma exec_array t x n l e :
  exec I R g fuel (SDeclArray t x n l) e =
  do (vs, e) <- evals I R g l e;
  match (match t with TI t => Some t | TC => type_c e | _ => None end) with
  | Some t =>
    do cs <- (fix go (vs : list value) : outcome (list Z) :=
                match vs with
                | [] => Done []
                | v :: vs' => do c <- character t v; do cs <- go vs'; Done (c :: cs)
                end) vs;
    let n := match n with Some n => n | None => size cs end in
    Done (Next, (x, Var (VA t (cs ++ repeat 0 (Z.to_nat n - List.length cs)%nat))) :: e)
  | None => Undefined
  end.
Proof. reflexivity. Qed.
Lemma exec_do a c e :
  exec I R g fuel (SDo a c) e =
  do (r, e) <- scoped (exec I R g fuel a) e;
  match r with
  | Next => loop fuel (condition I R g c) (scoped (exec I R g fuel a)) (steps I R g []) e
  | Broken => Done (Next, e)
  | Returned v => Done (Returned v, e)
  end.
Proof. reflexivity. Qed.
Lemma exec_alias x y e : exec I R g fuel (SAlias x y) e = Done (Next, (x, Alias y) :: e).
Proof. reflexivity. Qed.
Lemma exec_new t x args e :
  exec I R g fuel (SDeclNew t x args) e = do (v, e) <- eval I R g (ENew t args) e; Done (Next, (x, Var v) :: e).
Proof. reflexivity. Qed.
Lemma exec_block a e : exec I R g fuel (SBlock a) e = scoped (exec I R g fuel a) e.
Proof. reflexivity. Qed.
Lemma exec_if c a b e :
  exec I R g fuel (SIf c a b) e =
  do (d, e) <- condition I R g c e; if d then scoped (exec I R g fuel a) e else scoped (exec I R g fuel b) e.
Proof. reflexivity. Qed.
Lemma exec_for i c n a e :
  exec I R g fuel (SFor i c n a) e =
  scoped (fun e => do (_, e) <- exec I R g fuel i e;
                   loop fuel (condition I R g c) (scoped (exec I R g fuel a)) (steps I R g n) e) e.
Proof. reflexivity. Qed.
Lemma exec_while c a e :
  exec I R g fuel (SWhile c a) e =
  loop fuel (condition I R g c) (scoped (exec I R g fuel a)) (steps I R g []) e.
Proof. reflexivity. Qed.
Lemma exec_break e : exec I R g fuel SBreak e = Done (Broken, e).
Proof. reflexivity. Qed.
Lemma exec_return_none e : exec I R g fuel (SReturn None) e = Done (Returned VVoid, e).
Proof. reflexivity. Qed.
Lemma exec_return a e : exec I R g fuel (SReturn (Some a)) e = do (v, e) <- eval I R g a e; Done (Returned v, e).
Proof. reflexivity. Qed.
Lemma exec_each x a b e :
  exec I R g fuel (SEach x a b) e = do (v, e) <- eval I R g a e; do l <- elements I v; each x l (exec I R g fuel b) e.
Proof. reflexivity. Qed.
Lemma scoped_eq f e : scoped f e = do (r, e') <- f e; Done (r, leave e e').
Proof. reflexivity. Qed.
Lemma condition_eq c e : condition I R g c e = do (v, e) <- eval I R g c e; do b <- truth v; Done (b, e).
Proof. reflexivity. Qed.
Lemma loop_S n cond body step e :
  loop (S n) cond body step e =
  do (b, e) <- cond e;
  if b then
    do (r, e) <- body e;
    match r with
    | Next => do (_, e) <- step e; loop n cond body step e
    | Broken => Done (Next, e)
    | Returned v => Done (Returned v, e)
    end
  else Done (Next, e).
Proof. reflexivity. Qed.
End Statements.

(* ---------------------------------------------------------------- expressions, one constructor at a time *)

(* the type of c ? a : b also depends on the operand not chosen *)
Definition typed (I : implementation) (v : value) (e : env) (m : outcome (value * env)) : outcome (value * env) :=
  match m with Done (w, _) => do r <- both_int I v w; Done (r, e) | Undefined => Done (v, e) | OutOfFuel => OutOfFuel end.

Section Expressions.
Context (I : implementation) (R : calls) (g : list (string * value)).
Notation ev := (eval I R g).

Lemma eval_lit hex z e : ev (ELit hex z) e = Done (VI (literal_type hex z) z, e).
Proof. reflexivity. Qed.
Lemma eval_chr z e : ev (EChr z) e = Done (VI Char (norm I Char z), e).
Proof. reflexivity. Qed.
Lemma eval_text t l e : ev (EText t l) e = Done (VA t (l ++ [0]), e).
Proof. reflexivity. Qed.
Lemma eval_bool b e : ev (EBool b) e = Done (VB b, e).
Proof. reflexivity. Qed.
Lemma eval_null e : ev ENull e = Done (VNullptr, e).
Proof. reflexivity. Qed.
Lemma eval_var x e : ev (EVar x) e = do v <- read g e x; Done (v, e).
Proof. reflexivity. Qed.
Lemma eval_not a e : ev (ENot a) e = do (v, e) <- ev a e; do b <- truth v; Done (VB (negb b), e).
Proof. reflexivity. Qed.
Lemma eval_compl a e :
  ev (ECompl a) e =
  do (v, e) <- ev a e; do k <- int_of v;
  Done (VI (promote (fst k)) (norm I (promote (fst k)) (Z.lnot (norm I (promote (fst k)) (snd k)))), e).
Proof. reflexivity. Qed.
Lemma eval_neg a e :
  ev (ENeg a) e =
  do (v, e) <- ev a e; do k <- int_of v;
  do r <- result I (promote (fst k)) (- norm I (promote (fst k)) (snd k)); Done (r, e).
Proof. reflexivity. Qed.
Lemma eval_bin o a b e :
  ev (EBin o a b) e =
  do (v, e) <- ev a e; do (w, e) <- ev b e;
  match v, w, o with
  | VPred m x, VPred m' x', Eq =>
    do r <- R "EncodingCheckPredicate::operator==" [VPred m x; VPred m' x']; Done (fst r, e)
  | _, _, _ => do r <- bin I o v w; Done (r, e)
  end.
Proof. reflexivity. Qed.
Lemma eval_and a b e :
  ev (EAnd a b) e =
  do (v, e) <- ev a e; do c <- truth v;
  if c then (do (w, e) <- ev b e; do d <- truth w; Done (VB d, e)) else Done (VB false, e).
Proof. reflexivity. Qed.
Lemma eval_or a b e :
  ev (EOr a b) e =
  do (v, e) <- ev a e; do c <- truth v;
  if c then Done (VB true, e) else (do (w, e) <- ev b e; do d <- truth w; Done (VB d, e)).
Proof. reflexivity. Qed.
Lemma eval_cond c a b e :
  ev (ECond c a b) e =
  do (v, e) <- ev c e; do d <- truth v;
  if d then (do (v, e) <- ev a e; typed I v e (ev b e)) else (do (w, e) <- ev b e; typed I w e (ev a e)).
Proof. reflexivity. Qed.
Lemma eval_deref a e :
  ev (EDeref a) e =
  do (v, e) <- ev a e;
  match v with
  | VP t p => do r <- load I t p; Done (r, e)
  | VIter l n => do r <- element l n; Done (VI Size r, e)
  | _ => Undefined
  end.
Proof. reflexivity. Qed.
Lemma eval_index a i e :
  ev (EIndex a i) e = do (v, e) <- ev a e; do (k, e) <- ev i e; do r <- index_of I v k; Done (r, e).
Proof. reflexivity. Qed.
Lemma eval_field x f e : ev (EField x f) e = do v <- read g e x; do r <- field v f; Done (r, e).
Proof. reflexivity. Qed.
Lemma eval_same x y e : ev (ESameObject x y) e = Done (VB (String.eqb x y), e).
Proof. reflexivity. Qed.
Lemma eval_sizeof e : ev ESizeof e = match type_c e with Some t => Done (VI Size (bytes t), e) | None => Undefined end.
Proof. reflexivity. Qed.
Lemma eval_npos e : ev ENpos e = Done (VI Size npos, e).
Proof. reflexivity. Qed.
Lemma eval_cast t a e : ev (ECast t a) e = do (v, e) <- ev a e; do r <- convert I (type_c e) t v; Done (r, e).
Proof. reflexivity. Qed.
Lemma eval_reinterpret t a e :
  ev (EReinterpret t a) e =
  do (v, e) <- ev a e;
  match v with VP t' p => if width t =? width t' then Done (VP t p, e) else Undefined | _ => Undefined end.
Proof. reflexivity. Qed.
Lemma eval_preinc x e : ev (EPreInc x) e = do v <- read g e x; do w <- increment I v; Done (w, set e x w).
Proof. reflexivity. Qed.
Lemma eval_postinc x e : ev (EPostInc x) e = do v <- read g e x; do w <- increment I v; Done (v, set e x w).
Proof. reflexivity. Qed.
Lemma eval_assign x a e :
  ev (EAssign x a) e =
  do (v, e) <- ev a e;
  match look e (name_of e x), v with
  | Some (Var (VI t _)), (VI _ _ | VB _) => do w <- convert I None (TI t) v; Done (w, set e x w)
  | Some (Var (VB _)), (VI _ _ | VB _ | VP _ _) => do w <- convert I None (TI Bool) v; Done (w, set e x w)
  | Some (Var (VP t _)), (VP _ _ | VNullptr) => do w <- convert I None (TPtr t) v; Done (w, set e x w)
  | Some (Var (VS t _)), VS t' _ => do w <- convert I None (TStr t) v; Done (w, set e x w)
  | Some (Var VUnset), _ => Done (v, set e x v)
  | _, _ => Undefined
  end.
Proof. reflexivity. Qed.
Lemma eval_opassign o x a e :
  ev (EOpAssign o x a) e =
  do (w, e) <- ev a e; do v <- read g e x; do r <- bin I o v w;
  match v with VI t _ => do r <- convert I None (TI t) r; Done (r, set e x r) | _ => Undefined end.
Proof. reflexivity. Qed.
Lemma eval_assignfield x f a e :
  ev (EAssignField x f a) e =
  do (w, e) <- ev a e; do v <- read g e x; do r <- set_field I v f w; do u <- field r f; Done (u, set e x r).
Proof. reflexivity. Qed.
Lemma eval_opassignfield o x f a e :
  ev (EOpAssignField o x f a) e =
  do (w, e) <- ev a e; do v <- read g e x; do u <- field v f;
  do s <- bin I o u w; do r <- set_field I v f s; do u <- field r f; Done (u, set e x r).
Proof. reflexivity. Qed.
Lemma eval_assignindex x i a e :
  ev (EAssignIndex x i a) e =
  do (w, e) <- ev a e; do (k, e) <- ev i e; do v <- read g e x; do r <- set_index I v k w; Done (w, set e x r).
Proof. reflexivity. Qed.
Lemma eval_call f args e : ev (ECall f args) e = do (vs, e) <- evals I R g args e; apply I R e f args vs.
Proof. reflexivity. Qed.
Lemma eval_meth a m args e :
  ev (EMeth a m args) e =
  do (v, e) <- ev a e; do (vs, e) <- evals I R g args e; do r <- method I m v vs;
  Done (fst r, match a with EVar x => set e x (snd r) | _ => e end).
Proof. reflexivity. Qed.
Lemma eval_new t args e :
  ev (ENew t args) e =
  do (vs, e) <- evals I R g args e;
  match t, vs with
  | TPred, _ :: _ => do r <- R "EncodingCheckPredicate::EncodingCheckPredicate" (VPred 0 0 :: vs); Done (fst r, e)
  | _, _ => do r <- construct I (type_c e) t vs; Done (r, e)
  end.
Proof. reflexivity. Qed.
Lemma evals_nil e : evals I R g [] e = Done ([], e).
Proof. reflexivity. Qed.
Lemma evals_cons a l e : evals I R g (a :: l) e = do (v, e) <- ev a e; do (vs, e) <- evals I R g l e; Done (v :: vs, e).
Proof. reflexivity. Qed.
Lemma typed_done v e w e' : typed I v e (Done (w, e')) = do r <- both_int I v w; Done (r, e).
Proof. reflexivity. Qed.
Lemma steps_eq l e : steps I R g l e = do (_, e) <- evals I R g l e; Done (Next, e).
Proof. reflexivity. Qed.

(* operators *)
Lemma bin_int o t a t' b : bin I o (VI t a) (VI t' b) = int_bin I o t a t' b.
Proof. reflexivity. Qed.
Lemma bin_ptr_add t p t' k : bin I Add (VP t p) (VI t' k) = do q <- advance I p k; Done (VP t q).
Proof. reflexivity. Qed.
Lemma bin_ptr_sub t p t' k : bin I Sub (VP t p) (VI t' k) = do q <- advance I p (- k); Done (VP t q).
Proof. reflexivity. Qed.
Lemma index_ptr t p t' k : index_of I (VP t p) (VI t' k) = do q <- advance I p k; load I t q.
Proof. reflexivity. Qed.
Lemma index_array t l t' k : index_of I (VA t l) (VI t' k) = do x <- element l k; Done (VI t (norm I t x)).
Proof. reflexivity. Qed.
Lemma index_str t l t' k : index_of I (VS t l) (VI t' k) = do x <- element (l ++ [0]) k; Done (VI t (norm I t x)).
Proof. reflexivity. Qed.
Lemma index_vec t l t' k : index_of I (VVec t l) (VI t' k) = do x <- element l k; Done (VS t x).
Proof. reflexivity. Qed.
Lemma set_index_array t l t' k w :
  set_index I (VA t l) (VI t' k) w =
  do c <- character t w; do _ <- element l k; Done (VA t (Semantics.replace l (Z.to_nat k) c)).
Proof. reflexivity. Qed.
Lemma set_index_vec t l t' k t'' s :
  set_index I (VVec t l) (VI t' k) (VS t'' s) =
  do _ <- element l k; Done (VVec t (Semantics.replace l (Z.to_nat k) s)).
Proof. reflexivity. Qed.
Lemma increment_int t z :
  increment I (VI t z) = do k <- (do w <- int_bin I Add t z Int 1; int_of w); Done (VI t (norm I t (snd k))).
Proof. reflexivity. Qed.
Lemma increment_ptr t p : increment I (VP t p) = do q <- advance I p 1; Done (VP t q).
Proof. reflexivity. Qed.
End Expressions.

Lemma invoke_eq I g R fuel d vs :
  invoke I g R fuel d vs =
  do e <- bind_params I g R (deduce (f_params d) vs) (f_params d) vs;
  do (r, e) <- exec I R g fuel (f_body d)
                 (both e match deduce (f_params d) vs with Some t => [("C", TypeIs t)] | None => [] end);
  do v <- (match r with
           | Returned v => match f_ret d with TVoid => Done VVoid | t => convert I (deduce (f_params d) vs) t v end
           | _ => match f_ret d with TVoid => Done VVoid | _ => Undefined end
           end);
  Done (v, outs (f_params d) e).
Proof. reflexivity. Qed.
Lemma params_nil I g R c vs : bind_params I g R c [] vs = Done [].
Proof. reflexivity. Qed.
Lemma params_cons I g R c p ps v vs :
  bind_params I g R c (p :: ps) (v :: vs) =
  do w <- convert I c (p_ty p) v; do e <- bind_params I g R c ps vs; Done ((p_name p, Var w) :: e).
Proof. reflexivity. Qed.
Lemma params_default I g R c p ps :
  bind_params I g R c (p :: ps) [] =
  match p_default p with
  | Some d =>
    do (v, _) <- eval I R g d []; do w <- convert I c (p_ty p) v;
    do e <- bind_params I g R c ps []; Done ((p_name p, Var w) :: e)
  | None => Undefined
  end.
Proof. reflexivity. Qed.

(* ---------------------------------------------------------------- numbers *)

Lemma norm_char_uchar I x : 0 <= x < 256 -> norm I UChar (norm I Char x) = x.
Proof. intros H. unfold norm, is_signed, width. destruct (char_signed I); change (2 ^ (8 - 1)) with 128; change (2 ^ 8) with 256; lia. Qed.
Lemma norm_char_bits I x : 0 <= x < 256 -> bits Char (norm I Char x) = x.
Proof. intros H. unfold bits, norm, is_signed, width. destruct (char_signed I); change (2 ^ (8 - 1)) with 128; change (2 ^ 8) with 256; lia. Qed.
Lemma norm_char_wrap I x : bits Char (norm I Char x) = wrap8 x.
Proof. unfold bits, norm, wrap8, is_signed, width. destruct (char_signed I); change (2 ^ (8 - 1)) with 128; change (2 ^ 8) with 256; lia. Qed.
Lemma norm_char_char I x : norm I Char (norm I Char x) = norm I Char x.
Proof. unfold norm, is_signed, width. destruct (char_signed I); change (2 ^ (8 - 1)) with 128; change (2 ^ 8) with 256; lia. Qed.
Lemma norm_char_zero I x : 0 <= x < 256 -> (norm I Char x =? 0) = (x =? 0).
Proof. intros H. unfold norm, is_signed, width. destruct (char_signed I); change (2 ^ (8 - 1)) with 128; change (2 ^ 8) with 256; lia. Qed.
Lemma norm_char_small I x : 0 <= x < 128 -> norm I Char x = x.
Proof. intros H. unfold norm, is_signed, width. destruct (char_signed I); change (2 ^ (8 - 1)) with 128; change (2 ^ 8) with 256; lia. Qed.
Lemma norm_char_land I x m : 0 <= m < 256 -> Z.land (norm I Char x) m = Z.land x m.
Proof.
  intros Hm. assert (E : norm I Char x mod 2 ^ 8 = x mod 2 ^ 8).
  { unfold norm, is_signed, width. destruct (char_signed I); change (2 ^ (8 - 1)) with 128; change (2 ^ 8) with 256; lia. }
  replace m with (Z.land (Z.ones 8) m).
  - rewrite !Z.land_assoc, !Z.land_ones by lia. rewrite E. reflexivity.
  - rewrite Z.land_comm, Z.land_ones by lia. apply Z.mod_small. change (2 ^ 8) with 256. lia.
Qed.
Lemma norm_char_range I x : -128 <= norm I Char x < 256.
Proof. unfold norm, is_signed, width. destruct (char_signed I); change (2 ^ (8 - 1)) with 128; change (2 ^ 8) with 256; lia. Qed.
Lemma norm_char_eq I x y : 0 <= x < 256 -> 0 <= y < 256 -> (norm I Char x =? norm I Char y) = (x =? y).
Proof. intros H H'. unfold norm, is_signed, width. destruct (char_signed I); change (2 ^ (8 - 1)) with 128; change (2 ^ 8) with 256; lia. Qed.
Lemma norm_char_ascii I x y : 0 <= x < 256 -> 0 <= y < 128 -> (norm I Char x =? y) = (x =? y).
Proof. intros H H'. unfold norm, is_signed, width. destruct (char_signed I); change (2 ^ (8 - 1)) with 128; change (2 ^ 8) with 256; lia. Qed.

Lemma norm_int I x : -0x80000000 <= x < 0x80000000 -> norm I Int x = x.
Proof. intros H. unfold norm, is_signed, width. change (2 ^ (32 - 1)) with 0x80000000. change (2 ^ 32) with 0x100000000. lia. Qed.
Lemma norm_enum I x : -0x80000000 <= x < 0x80000000 -> norm I Enum x = x.
Proof. exact (norm_int I x). Qed.
Lemma norm_uint_wrap I x : norm I UInt x = wrap32 x.
Proof. reflexivity. Qed.
Lemma norm_uint I x : 0 <= x < 0x100000000 -> norm I UInt x = x.
Proof. intros H. rewrite norm_uint_wrap. unfold wrap32. lia. Qed.
Lemma norm_char32_wrap I x : norm I Char32 x = wrap32 x.
Proof. reflexivity. Qed.
Lemma norm_char32 I x : 0 <= x < 0x100000000 -> norm I Char32 x = x.
Proof. exact (norm_uint I x). Qed.
Lemma norm_char16_wrap I x : norm I Char16 x = wrap16 x.
Proof. reflexivity. Qed.
Lemma norm_char16 I x : 0 <= x < 0x10000 -> norm I Char16 x = x.
Proof. intros H. rewrite norm_char16_wrap. unfold wrap16. lia. Qed.
Lemma bits_char16 x : 0 <= x < 0x10000 -> bits Char16 x = x.
Proof. exact (norm_char16 {| char_signed := true; pointer_checks := true; configured := Wchar32 |} x). Qed.
Lemma bits_char32 x : 0 <= x < 0x100000000 -> bits Char32 x = x.
Proof. exact (norm_char32 {| char_signed := true; pointer_checks := true; configured := Wchar32 |} x). Qed.
Lemma norm_uchar_wrap I x : norm I UChar x = wrap8 x.
Proof. reflexivity. Qed.
Lemma norm_uchar I x : 0 <= x < 256 -> norm I UChar x = x.
Proof. intros H. rewrite norm_uchar_wrap. unfold wrap8. lia. Qed.
Lemma norm_size I x : 0 <= x < 0x10000000000000000 -> norm I Size x = x.
Proof. intros H. unfold norm, is_signed, width. change (2 ^ 64) with 0x10000000000000000. lia. Qed.
Lemma norm_long I x : -0x8000000000000000 <= x < 0x8000000000000000 -> norm I Long x = x.
Proof. intros H. unfold norm, is_signed, width. change (2 ^ (64 - 1)) with 0x8000000000000000. change (2 ^ 64) with 0x10000000000000000. lia. Qed.

Lemma result_int I x : -0x80000000 <= x < 0x80000000 -> result I Int x = Done (VI Int x).
Proof.
  intros H. unfold result. cbn [is_signed]. unfold fits, is_signed, width. change (2 ^ (32 - 1)) with 0x80000000.
  replace ((- (0x80000000) <=? x) && (x <? 0x80000000)) with true by lia. reflexivity.
Qed.
Lemma result_uint I x : result I UInt x = Done (VI UInt (wrap32 x)).
Proof. reflexivity. Qed.
Lemma result_uint_in I x : 0 <= x < 0x100000000 -> result I UInt x = Done (VI UInt x).
Proof. intros H. rewrite result_uint. unfold wrap32. rewrite Z.mod_small by lia. reflexivity. Qed.
Lemma result_size I x : result I Size x = Done (VI Size (norm I Size x)).
Proof. reflexivity. Qed.

Lemma shl_int I a b : 0 <= b < 32 -> 0 <= a -> Z.shiftl a b < 0x80000000 -> shift_left I Int a b = Done (VI Int (Z.shiftl a b)).
Proof.
  intros Hb Ha H. unfold shift_left. cbn [is_signed width].
  assert (0 <= Z.shiftl a b) by (apply Z.shiftl_nonneg; exact Ha).
  change (2 ^ 32) with 0x100000000.
  replace ((b <? 0) || (32 <=? b)) with false by lia.
  replace ((a <? 0) || (0x100000000 <=? Z.shiftl a b)) with false by lia.
  cbn [andb]. rewrite norm_int by lia. reflexivity.
Qed.
Lemma shl_uint I a b : 0 <= b < 32 -> shift_left I UInt a b = Done (VI UInt (wrap32 (Z.shiftl a b))).
Proof.
  intros Hb. unfold shift_left. cbn [is_signed width].
  replace ((b <? 0) || (32 <=? b)) with false by lia. reflexivity.
Qed.
Lemma shl_uint_in I a b : 0 <= b < 32 -> 0 <= Z.shiftl a b < 0x100000000 -> shift_left I UInt a b = Done (VI UInt (Z.shiftl a b)).
Proof. intros Hb H. rewrite shl_uint by lia. unfold wrap32. rewrite Z.mod_small by lia. reflexivity. Qed.
Lemma shr_int I a b : 0 <= b < 32 -> shift_right I Int a b = Done (VI Int (Z.shiftr a b)).
Proof. intros Hb. unfold shift_right. cbn [width]. replace ((b <? 0) || (32 <=? b)) with false by lia. reflexivity. Qed.
Lemma shr_uint I a b : 0 <= b < 32 -> shift_right I UInt a b = Done (VI UInt (Z.shiftr a b)).
Proof. intros Hb. unfold shift_right. cbn [width]. replace ((b <? 0) || (32 <=? b)) with false by lia. reflexivity. Qed.

(* ---------------------------------------------------------------- pointers *)

Lemma size_app {A} (a b : list A) : size (a ++ b) = size a + size b.
Proof. unfold size. rewrite app_length. lia. Qed.
Lemma size_cons {A} (a : A) b : size (a :: b) = 1 + size b.
Proof. unfold size. cbn [List.length]. lia. Qed.
Lemma size_nil {A} : size (@nil A) = 0.
Proof. reflexivity. Qed.
Lemma size_nonneg {A} (l : list A) : 0 <= size l.
Proof. unfold size. lia. Qed.

Lemma suffix_refl l : suffix l l.
Proof. exists []. reflexivity. Qed.
Lemma suffix_tail x rest arr : suffix (x :: rest) arr -> suffix rest arr.
Proof. intros [pre ->]. exists (pre ++ [x]). rewrite <- app_assoc. reflexivity. Qed.
Lemma suffix_size rest arr : suffix rest arr -> size rest <= size arr.
Proof. intros [pre ->]. rewrite size_app. pose proof (size_nonneg pre). lia. Qed.
Lemma suffix_Forall P rest arr : suffix rest arr -> Forall P arr -> Forall P rest.
Proof. intros [pre ->] H. apply Forall_app in H. apply H. Qed.

Lemma element_app {A} (pre rest : list A) i : 0 <= i -> element (pre ++ rest) (size pre + i) = element rest i.
Proof.
  intros Hi. unfold element. pose proof (size_nonneg pre).
  replace (size pre + i <? 0) with false by lia. replace (i <? 0) with false by lia.
  rewrite nth_error_app2 by (unfold size in *; lia).
  replace (Z.to_nat (size pre + i) - List.length pre)%nat with (Z.to_nat i) by (unfold size in *; lia). reflexivity.
Qed.

Lemma element_index rest (i : nat) : element rest (Z.of_nat i) = index rest i.
Proof. unfold element, index. replace (Z.of_nat i <? 0) with false by lia. rewrite Nat2Z.id. reflexivity. Qed.

Lemma load_into I t arr rest :
  suffix rest arr -> load I t (into arr rest) = do x <- deref rest; Done (VI t (norm I t x)).
Proof.
  intros [pre ->]. unfold load, into. rewrite size_app.
  replace (size pre + size rest - size rest) with (size pre + 0) by lia.
  rewrite element_app by lia. destruct rest; reflexivity.
Qed.
Lemma load_null I t : load I t PNull = Undefined.
Proof. reflexivity. Qed.

Lemma advance_into I arr x rest :
  suffix (x :: rest) arr -> advance I (into arr (x :: rest)) 1 = Done (into arr rest).
Proof.
  intros H. unfold advance, into. pose proof (suffix_size _ _ H). rewrite size_cons in *. pose proof (size_nonneg rest).
  replace (size arr - (1 + size rest) + 1) with (size arr - size rest) by lia.
  replace ((0 <=? size arr - size rest) && (size arr - size rest <=? size arr)) with true by lia.
  rewrite andb_false_r. reflexivity.
Qed.

(* p[i] for i = 0, 1, 2, read in turn *)
Lemma index_into I t arr rest i :
  suffix rest arr -> 0 <= i <= size rest ->
  (do q <- advance I (into arr rest) i; load I t q) = do x <- index rest (Z.to_nat i); Done (VI t (norm I t x)).
Proof.
  intros H Hi. unfold advance, into. pose proof (suffix_size _ _ H).
  replace ((0 <=? size arr - size rest + i) && (size arr - size rest + i <=? size arr)) with true by lia.
  rewrite andb_false_r. cbn [bind]. destruct H as [pre ->]. unfold load. rewrite size_app.
  replace (size pre + size rest - size rest + i) with (size pre + i) by lia. rewrite element_app by lia.
  rewrite <- element_index, Z2Nat.id by lia. reflexivity.
Qed.

(* ---------------------------------------------------------------- tactics *)

(* The left hand side of the goal is  bind (... (bind m k) ...) k' ; [m] is what is evaluated next. *)
Ltac head t :=
  lazymatch t with
  | bind ?m _ => head m
  | typed _ _ _ ?m => head m
  | _ => t
  end.

Ltac lz_pure t := eval lazy beta iota zeta in t.
Ltac lz_env t :=
  eval lazy beta iota zeta delta [
    look name_of set put type_c leave names drop Nat.sub both outs write_back String.eqb Ascii.eqb Bool.eqb
    fst snd p_ref p_name p_ty p_default f_params f_ret f_body f_name deduce ity_eqb literal_type Z.compare Pos.compare
    Pos.compare_cont CompOpp bytes width promote] in t.
Ltac lz_val t :=
  eval lazy beta iota zeta delta [
    bin int_of int_bin common promote truth convert field set_field construct both_int character ity_eqb bind fst snd
    elements look name_of type_c String.eqb Ascii.eqb Bool.eqb] in t.
Ltac lz_app t :=
  eval lazy beta iota zeta delta [
    apply method characters look name_of String.eqb Ascii.eqb Bool.eqb] in t.

Ltac to r r' := change r with r'.

(* bounds of the bit operations in the goal *)
Lemma land_range a m : 0 <= m -> 0 <= Z.land a m <= m.
Proof.
  intros H. split; [apply Z.land_nonneg; right; exact H|].
  destruct (Z.eq_dec m 0) as [->|Hm]; [rewrite Z.land_0_r; lia|].
  apply Z.ldiff_le; [lia|].
  apply Z.bits_inj'. intros n Hn. rewrite Z.ldiff_spec, Z.land_spec, Z.bits_0. destruct (Z.testbit a n), (Z.testbit m n); reflexivity.
Qed.

Lemma shiftr_range a b : 0 <= a -> 0 <= b -> 0 <= Z.shiftr a b <= a.
Proof.
  intros Ha Hb. rewrite Z.shiftr_div_pow2 by exact Hb. assert (0 < 2 ^ b) by (apply Z.pow_pos_nonneg; lia). split.
  - apply Z.div_pos; lia.
  - apply Z.div_le_upper_bound; nia.
Qed.
Lemma lor_range a b : 0 <= a -> 0 <= b -> 0 <= Z.lor a b <= a + b.
Proof.
  intros Ha Hb. split; [apply Z.lor_nonneg; lia|].
  assert (E : Z.lor a b = a + Z.ldiff b a).
  { assert (L : Z.land a (Z.ldiff b a) = 0).
    { apply Z.bits_inj'. intros n Hn. rewrite Z.land_spec, Z.ldiff_spec, Z.bits_0. destruct (Z.testbit a n), (Z.testbit b n); reflexivity. }
    rewrite Z.add_nocarry_lxor by exact L. rewrite Z.lxor_lor by exact L.
    apply Z.bits_inj'. intros n Hn. rewrite !Z.lor_spec, Z.ldiff_spec. destruct (Z.testbit a n), (Z.testbit b n); reflexivity. }
  assert (Z.ldiff b a <= b); [|lia]. apply Z.ldiff_le; [exact Hb|].
  apply Z.bits_inj'. intros n Hn. rewrite !Z.ldiff_spec, Z.bits_0. destruct (Z.testbit a n), (Z.testbit b n); reflexivity.
Qed.

Ltac is_num z := match z with Z0 => idtac | Zpos _ => idtac | Zneg _ => idtac end.

Ltac land_bounds :=
  repeat match goal with
  | |- context [Z.land ?a ?m] =>
    is_num m;
    lazymatch goal with H : 0 <= Z.land a m <= m |- _ => fail | _ => idtac end;
    assert (0 <= Z.land a m <= m) by (apply land_range; lia)
  end.

Ltac shift_eqs :=
  repeat match goal with
  | |- context [Z.shiftl ?a ?b] =>
    is_num b;
    lazymatch goal with H : Z.shiftl a b = _ |- _ => fail | _ => idtac end;
    let k := eval vm_compute in (2 ^ b) in
    assert (Z.shiftl a b = a * k) by (rewrite Z.shiftl_mul_pow2 by lia; reflexivity)
  end.
Ltac char_ranges :=
  repeat match goal with
  | |- context [norm ?I Char ?z] =>
    lazymatch goal with H : -128 <= norm I Char z < 256 |- _ => fail | _ => idtac end;
    pose proof (norm_char_range I z)
  end.
Ltac or_bounds :=
  repeat match goal with
  | |- context [Z.lor ?a ?b] =>
    lazymatch goal with H : 0 <= Z.lor a b <= a + b |- _ => fail | _ => idtac end;
    assert (0 <= Z.lor a b <= a + b) by (apply lor_range; land_bounds; lia)
  end.
Ltac shiftr_bounds :=
  repeat match goal with
  | |- context [Z.shiftr ?a ?b] =>
    is_num b;
    lazymatch goal with H : 0 <= Z.shiftr a b <= a |- _ => fail | _ => idtac end;
    assert (0 <= Z.shiftr a b <= a) by (apply shiftr_range; lia)
  end.
Ltac bl := first [assumption | idtac]; char_ranges; land_bounds; or_bounds; shiftr_bounds; land_bounds; shift_eqs; lia.

(* only plain `char` values still in their implementation-defined form *)
Ltac settled z :=
  lazymatch z with
  | context [result _ _ _] => fail
  | context [shift_left _ _ _ _] => fail
  | context [shift_right _ _ _ _] => fail
  | context [norm _ Int _] => fail
  | context [norm _ Enum _] => fail
  | context [norm _ UInt _] => fail
  | context [norm _ Char32 _] => fail
  | context [norm _ Char16 _] => fail
  | context [norm _ UChar _] => fail
  | context [norm _ Size _] => fail
  | context [norm _ Long _] => fail
  | context [norm _ Char (norm _ Char _)] => fail
  | _ => idtac
  end.


(* simplify one number in h, a part of the goal *)
Ltac number_in h :=
  match h with
  | context [norm ?I UInt ?z] => is_num z; let v := eval vm_compute in (wrap32 z) in change (norm I UInt z) with v
  | context [Z.lnot ?a] => is_num a; let v := eval vm_compute in (Z.lnot a) in change (Z.lnot a) with v
  | context [norm ?I Int ?z] => settled z; rewrite (norm_int I z) by bl
  | context [norm ?I Enum ?z] => settled z; rewrite (norm_enum I z) by bl
  | context [norm ?I UInt ?z] => settled z; rewrite (norm_uint I z) by bl
  | context [norm ?I Char32 ?z] => settled z; rewrite (norm_char32 I z) by bl
  | context [norm ?I Char16 ?z] => settled z; rewrite (norm_char16 I z) by bl
  | context [norm ?I UChar (norm ?I Char ?z)] => rewrite (norm_char_uchar I z) by bl
  | context [bits Char (norm ?I Char ?z)] => rewrite (norm_char_wrap I z)
  | context [bits Char16 ?z] => settled z; rewrite (bits_char16 z) by bl
  | context [bits Char32 ?z] => settled z; rewrite (bits_char32 z) by bl
  | context [norm ?I Char (norm ?I Char ?z)] => rewrite (norm_char_char I z)
  | context [norm ?I UChar ?z] => settled z; rewrite (norm_uchar I z) by bl
  | context [norm ?I Size ?z] => settled z; rewrite (norm_size I z) by bl
  | context [norm ?I Long ?z] => settled z; rewrite (norm_long I z) by bl
  | context [norm ?I Char ?z =? 0] => rewrite (norm_char_zero I z) by bl
  | context [result ?I Int ?z] => settled z; rewrite (result_int I z) by bl
  | context [result ?I UInt ?z] => settled z; first [rewrite (result_uint_in I z) by bl | rewrite (result_uint I z)]
  | context [shift_right ?I Int ?a ?b] => settled a; rewrite (shr_int I a b) by bl
  | context [shift_right ?I UInt ?a ?b] => settled a; rewrite (shr_uint I a b) by bl
  | context [shift_left ?I Int ?a ?b] => settled a; rewrite (shl_int I a b) by bl
  | context [shift_left ?I UInt ?a ?b] => settled a; first [rewrite (shl_uint_in I a b) by bl | rewrite (shl_uint I a b) by bl]
  | context [Z.eqb ?a ?b] => is_num a; is_num b; let v := eval vm_compute in (Z.eqb a b) in change (Z.eqb a b) with v
  | context [Z.leb ?a ?b] => is_num a; is_num b; let v := eval vm_compute in (Z.leb a b) in change (Z.leb a b) with v
  | context [Z.ltb ?a ?b] => is_num a; is_num b; let v := eval vm_compute in (Z.ltb a b) in change (Z.ltb a b) with v
  | context [Z.gtb ?a ?b] => is_num a; is_num b; let v := eval vm_compute in (Z.gtb a b) in change (Z.gtb a b) with v
  | context [Z.geb ?a ?b] => is_num a; is_num b; let v := eval vm_compute in (Z.geb a b) in change (Z.geb a b) with v
  | context [Z.land ?a ?b] => is_num a; is_num b; let v := eval vm_compute in (Z.land a b) in change (Z.land a b) with v
  | context [Z.lor ?a ?b] => is_num a; is_num b; let v := eval vm_compute in (Z.lor a b) in change (Z.lor a b) with v
  end.
Ltac number := lazymatch goal with |- ?l = _ => let h := head l in number_in h end.
Ltac settle :=
  lazymatch goal with
  | |- ?l = _ =>
    let h := head l in
    lazymatch h with
    | Done (?v, _) => number_in v; settle
    | Done ?v => number_in v; settle
    | result _ _ _ => number_in h; settle
    | shift_left _ _ _ _ => number_in h; settle
    | shift_right _ _ _ _ => number_in h; settle
    | if _ then _ else _ => match h with if ?b then _ else _ => number_in b end; settle
    | _ => idtac
    end
  end || idtac.

(* results of calls, and what else the proof knows: a hook *)
Ltac known r := fail.

Ltac step1 r :=
  lazymatch r with
  | Done ?x =>
    let x' := lz_env x in
    lazymatch goal with
    | |- context [bind (Done x) ?k] =>
      tryif is_var k
      then (let kb := eval cbv delta [k] in k in let y := lz_pure (kb x') in change (bind (Done x) k) with y; try clear k)
      else (let y := lz_pure (k x') in change (bind (Done x) k) with y)
    | |- context [typed ?I ?v ?e (Done x)] =>
      change (typed I v e (Done x)) with (typed I v e (Done x')); rewrite typed_done
    | |- Done x = _ => lazymatch x with x' => fail | _ => change (Done x) with (Done x') end
    end
  | Undefined => lazymatch goal with |- context [bind (@Undefined ?A) ?k] => change (bind (@Undefined A) k) with (@Undefined _) end
  | OutOfFuel => lazymatch goal with |- context [bind (@OutOfFuel ?A) ?k] => change (bind (@OutOfFuel A) k) with (@OutOfFuel _) end
  | exec _ _ _ _ _ (both ?a ?b) => let e := lz_env (both a b) in change (both a b) with e
  | eval ?I ?R ?g ?x ?e =>
    lazymatch x with
    | ELit ?h ?z => rewrite (eval_lit I R g h z e)
    | EChr ?z => rewrite (eval_chr I R g z e)
    | EText ?t ?l => rewrite (eval_text I R g t l e)
    | EBool ?b => rewrite (eval_bool I R g b e)
    | ENull => rewrite (eval_null I R g e)
    | EVar ?x => rewrite (eval_var I R g x e)
    | ENot ?a => rewrite (eval_not I R g a e)
    | ECompl ?a => rewrite (eval_compl I R g a e)
    | ENeg ?a => rewrite (eval_neg I R g a e)
    | EBin ?o ?a ?b => rewrite (eval_bin I R g o a b e)
    | EAnd ?a ?b => rewrite (eval_and I R g a b e)
    | EOr ?a ?b => rewrite (eval_or I R g a b e)
    | ECond ?c ?a ?b => rewrite (eval_cond I R g c a b e)
    | EDeref ?a => rewrite (eval_deref I R g a e)
    | EIndex ?a ?i => rewrite (eval_index I R g a i e)
    | EField ?x ?f => rewrite (eval_field I R g x f e)
    | ESameObject ?x ?y => rewrite (eval_same I R g x y e); let v := lz_env (String.eqb x y) in change (String.eqb x y) with v
    | ESizeof => rewrite (eval_sizeof I R g e)
    | ENpos => rewrite (eval_npos I R g e)
    | ECast ?t ?a => rewrite (eval_cast I R g t a e)
    | EReinterpret ?t ?a => rewrite (eval_reinterpret I R g t a e)
    | EPreInc ?x => rewrite (eval_preinc I R g x e)
    | EPostInc ?x => rewrite (eval_postinc I R g x e)
    | EAssign ?x ?a => rewrite (eval_assign I R g x a e)
    | EOpAssign ?o ?x ?a => rewrite (eval_opassign I R g o x a e)
    | EAssignField ?x ?f ?a => rewrite (eval_assignfield I R g x f a e)
    | EOpAssignField ?o ?x ?f ?a => rewrite (eval_opassignfield I R g o x f a e)
    | EAssignIndex ?x ?i ?a => rewrite (eval_assignindex I R g x i a e)
    | ECall ?f ?a => rewrite (eval_call I R g f a e)
    | EMeth ?a ?m ?l => rewrite (eval_meth I R g a m l e)
    | ENew ?t ?l => rewrite (eval_new I R g t l e)
    end
  | evals ?I ?R ?g ?l ?e =>
    lazymatch l with
    | [] => rewrite (evals_nil I R g e)
    | ?a :: ?l => rewrite (evals_cons I R g a l e)
    end
  | exec ?I ?R ?g ?f ?s ?e =>
    lazymatch s with
    | SSeq ?a ?b => rewrite (exec_seq I R g f a b e)
    | SIf ?c ?a ?b => rewrite (exec_if I R g f c a b e)
    | SReturn (Some ?a) => rewrite (exec_return I R g f a e)
    | SReturn None => rewrite (exec_return_none I R g f e)
    | SExpr ?a => rewrite (exec_expr I R g f a e)
    | SDecl ?t ?x (Some ?a) => rewrite (exec_decl I R g f t x a e)
    | SDecl ?t ?x None => rewrite (exec_decl_none I R g f t x e)
    | SDeclArray ?t ?x ?n ?l => rewrite (exec_array I R g f t x n l e)
    | SDeclNew ?t ?x ?a => rewrite (exec_new I R g f t x a e)
    | SAlias ?x ?y => rewrite (exec_alias I R g f x y e)
    | SSkip => rewrite (exec_skip I R g f e)
    | SBlock ?a => rewrite (exec_block I R g f a e)
    | SBreak => rewrite (exec_break I R g f e)
    | SEach ?x ?a ?b => rewrite (exec_each I R g f x a b e)
    | SFor ?i ?c ?n ?a => rewrite (exec_for I R g f i c n a e)
    | SWhile ?c ?a => rewrite (exec_while I R g f c a e)
    | SDo ?a ?c => rewrite (exec_do I R g f a c e)
    end
  | scoped ?f ?e => rewrite (scoped_eq f e); cbv beta
  | condition ?I ?R ?g ?c ?e => rewrite (condition_eq I R g c e)
  | steps ?I ?R ?g ?l ?e => rewrite (steps_eq I R g l e)
  | read ?g ?e ?x =>
    let y := eval lazy beta iota zeta delta [look name_of String.eqb Ascii.eqb Bool.eqb] in (look e (name_of e x)) in
    lazymatch y with
    | Some (Var ?v) => change r with (@Done value v)
    | None =>
      lazymatch g with
      | G0 ?T =>
        let y := eval lazy in (global constants x) in
        lazymatch y with
        | Some ?v => change r with (@Done value v)
        | None => let v := eval lazy beta iota zeta delta [global G0 constants String.eqb Ascii.eqb Bool.eqb] in
                          (match global g x with Some v => v | None => VFun x end) in
                  change r with (@Done value v)
        end
      end
    end
  | bind_params ?I ?g ?R ?c ?ps ?vs =>
    lazymatch ps with
    | [] => rewrite (params_nil I g R c vs)
    | ?p :: ?ps =>
      lazymatch vs with
      | ?v :: ?vs => rewrite (params_cons I g R c p ps v vs)
      | [] => rewrite (params_default I g R c p ps)
      end
    end;
    lazymatch goal with |- ?l = _ => let h := head l in let h' := lz_env h in change h with h' end
  | bin ?I Add (VP ?t ?p) (VI ?t' ?k) => rewrite (bin_ptr_add I t p t' k)
  | bin ?I Sub (VP ?t ?p) (VI ?t' ?k) => rewrite (bin_ptr_sub I t p t' k)
  | bin _ _ _ _ => let r' := lz_val r in change r with r'
  | int_bin _ _ _ _ _ _ => let r' := lz_val r in change r with r'
  | index_of ?I (VP ?t ?p) (VI ?t' ?k) => rewrite (index_ptr I t p t' k)
  | index_of ?I (VA ?t ?p) (VI ?t' ?k) => rewrite (index_array I t p t' k)
  | index_of ?I (VS ?t ?p) (VI ?t' ?k) => rewrite (index_str I t p t' k)
  | index_of ?I (VVec ?t ?p) (VI ?t' ?k) => rewrite (index_vec I t p t' k)
  | set_index ?I (VA ?t ?p) (VI ?t' ?k) ?w => rewrite (set_index_array I t p t' k w)
  | set_index ?I (VVec ?t ?p) (VI ?t' ?k) (VS ?t'' ?s) => rewrite (set_index_vec I t p t' k t'' s)
  | increment ?I (VI ?t ?z) => rewrite (increment_int I t z)
  | increment ?I (VP ?t ?p) => rewrite (increment_ptr I t p)
  | truth _ => let r' := lz_val r in change r with r'
  | int_of _ => let r' := lz_val r in change r with r'
  | convert _ _ _ _ => let r' := lz_val r in change r with r'
  | construct _ _ _ [] => let r' := lz_val r in change r with r'
  | construct _ _ _ [VS _ _] => let r' := lz_val r in change r with r'
  | construct _ _ _ [VI _ _] => let r' := lz_val r in change r with r'
  | field _ _ => let r' := lz_val r in change r with r'
  | set_field _ _ _ _ => let r' := lz_val r in change r with r'
  | both_int _ _ _ => let r' := lz_val r in change r with r'
  | character _ _ => let r' := lz_val r in change r with r'
  | apply _ _ _ _ _ _ => let r' := lz_app r in change r with r'
  | method _ _ _ _ => let r' := lz_app r in change r with r'
  | characters _ => let r' := lz_app r in change r with r'
  | result _ _ _ => number
  | shift_left _ _ _ _ => number
  | shift_right _ _ _ _ => number
  | if true then _ else _ => let r' := lz_pure r in change r with r'
  | if false then _ else _ => let r' := lz_pure r in change r with r'
  | if negb true then ?x else ?y => change r with y
  | if negb false then ?x else ?y => change r with x
  | if ?b then _ else _ => number_in b; lazymatch goal with |- ?l = _ => let h := head l in let h' := lz_pure h in change h with h' end
  | _ => let r' := lz_env r in lazymatch r' with r => fail | _ => change r with r' end
  end.
(* what is done next is kept under names *)
Ltac name_in t :=
  lazymatch t with
  | bind ?m ?k => tryif is_var k then name_in m else (let K := fresh "K" in set (K := k); name_in m)
  | typed _ _ _ ?m => name_in m
  | _ => idtac
  end.
Ltac name_rest := lazymatch goal with |- ?l = _ => name_in l end.
Ltac step := lazymatch goal with |- ?l = _ => let r := head l in first [known r | step1 r]; settle; name_rest end.
Ltac go := repeat step.

(* overload resolution, in each configuration that is left *)
Ltac resolved c :=
  lazymatch goal with
  | |- context [select (funs ?I) ?f ?vs] =>
    let H := fresh in
    assert (H : select (funs I) f vs = Some c)
      by (unfold funs; repeat match goal with K : context [configured I] |- _ => revert K end;
          destruct (configured I); intros; first [reflexivity | discriminate]);
    rewrite H; clear H
  end.

(* enter a function: the goal starts with  call I T fuel (S d) "f" args  *)
Ltac enter c :=
  rewrite call_S;
  lazymatch goal with
  | |- context [match external ?T ?f ?vs with Some _ => _ | None => _ end] =>
    change (external T f vs) with (@None value); cbv iota beta;
    resolved c; cbv iota beta;
    rewrite invoke_eq; unfold c
  end;
  repeat match goal with |- context [deduce ?a ?b] => let v := lz_env (deduce a b) in change (deduce a b) with v end;
  lazymatch goal with |- ?l = ?r => let l' := eval lazy beta iota zeta delta [f_params f_body f_ret] in l in change (l' = r) end;
  go.

Ltac atom b :=
  lazymatch b with
  | negb ?c => atom c
  | andb ?c _ => atom c
  | orb ?c _ => atom c
  | true => fail
  | false => fail
  | _ => destruct b eqn:?
  end.
Ltac split_if :=
  lazymatch goal with
  | |- ?l = _ => let h := head l in lazymatch h with if ?b then _ else _ => atom b end
  end; cbn [negb andb orb].
Ltac go_all := go; repeat (split_if; go).
(* use the decisions made *)
Ltac decide_eqs :=
  repeat match goal with
  | H : ?b = true |- _ => match goal with |- context [b] => rewrite H end
  | H : ?b = false |- _ => match goal with |- context [b] => rewrite H end
  end.
Ltac strings := rewrite <- ?app_assoc; cbn [List.app]; do 5 f_equal.
Ltac finish := decide_eqs; cbn [negb andb orb]; first [reflexivity | exfalso; lia].
