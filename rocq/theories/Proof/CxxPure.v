(* A compiler from the part of C++ that the files source/bits<N>/char_*.cxx are written in (functions of one
   character, no loops, no pointers) to functions on Z, and the proof that running a function in the semantics
   of Cxx/Semantics.v gives what its translation gives. *)
From Coq Require Import ZArith List Bool String Lia.
From Verif Require Import Machine.
From Verif.Cxx Require Import Syntax Semantics.
From Verif.Proof Require Import Bits.
Import ListNotations.
Local Open Scope string_scope.
Local Open Scope list_scope.
Local Open Scope Z_scope.

(* ---------------------------------------------------------------- the compiler *)

(* a variable: its type and bounds of its value; of a char the bit pattern *)
Record var := { x_name : string; x_ty : ity; x_lo : Z; x_hi : Z }.
Definition ctx := list var.

(* a number: its type, bounds, and its value from those of the variables; it stands for [norm t] of that value *)
Record num := { n_ty : ity; n_lo : Z; n_hi : Z; n_den : list Z -> Z }.

(* functions already compiled, with the type of their parameter *)
Inductive fn := FZ (t : ity) (d : Z -> Z) | FB (d : Z -> bool).
Definition table := list (string * ity * fn).

Fixpoint callee (F : table) (f : string) (t : ity) : option fn :=
  match F with
  | [] => None
  | (g, u, d) :: F' => if ity_eqb t u then (if String.eqb f g then Some d else callee F' f t) else callee F' f t
  end.

Definition between (lo hi a b : Z) : bool := (a <=? lo) && (hi <=? b).
(* values in these bounds are represented as they are *)
Definition plain (t : ity) (lo hi : Z) : bool :=
  match t with
  | UChar => between lo hi 0 0xff
  | Char16 => between lo hi 0 0xffff
  | Char32 | UInt => between lo hi 0 0xffffffff
  | Int => between lo hi (-0x80000000) 0x7fffffff
  | _ => false
  end.
Definition wrap (t : ity) : option (Z -> Z) :=
  match t with Char | UChar => Some wrap8 | Char16 => Some wrap16 | Char32 => Some wrap32 | _ => None end.
Definition top (t : ity) : Z := 2 ^ width t - 1.
Definition pattern (t : ity) (lo hi : Z) : bool :=
  match t with Char | UChar | Char16 | Char32 => between lo hi 0 (top t) | _ => false end.
(* converting to t may drop the bits above t's *)
Definition narrows (n : num) (t : ity) : bool := plain (n_ty n) (n_lo n) (n_hi n) || (width t <=? width (n_ty n)).

Fixpoint index (X : ctx) (x : string) : option (nat * var) :=
  match X with
  | [] => None
  | v :: X' => if String.eqb x (x_name v) then Some (O, v) else match index X' x with Some (i, v) => Some (S i, v) | None => None end
  end.

Definition is_int (t : ity) : bool := match t with Int | UInt => true | _ => false end.

Definition arith (o : binop) (x y : num) : option num :=
  if plain (n_ty x) (n_lo x) (n_hi x) && plain (n_ty y) (n_lo y) (n_hi y) then
    let t := common (n_ty x) (n_ty y) in
    match o with
    | Add =>
      let lo := n_lo x + n_lo y in
      let hi := n_hi x + n_hi y in
      if match t with Int => plain Int lo hi | UInt => (0 <=? n_lo x) && (0 <=? n_lo y) | _ => false end
      then Some {| n_ty := t; n_lo := lo; n_hi := hi; n_den := fun r => n_den x r + n_den y r |} else None
    | BAnd =>
      if is_int t && (0 <=? n_lo x)
      then Some {| n_ty := t; n_lo := 0; n_hi := if 0 <=? n_lo y then Z.min (n_hi x) (n_hi y) else n_hi x;
                   n_den := fun r => Z.land (n_den x r) (n_den y r) |} else None
    | BOr =>
      if is_int t && (0 <=? n_lo x) && (0 <=? n_lo y)
      then Some {| n_ty := t; n_lo := 0; n_hi := 2 ^ (1 + Z.log2 (Z.max (n_hi x) (n_hi y))) - 1;
                   n_den := fun r => Z.lor (n_den x r) (n_den y r) |} else None
    | Shr =>
      if is_int (promote (n_ty x)) && (0 <=? n_lo x) && (n_lo y =? n_hi y) && (0 <=? n_lo y) && (n_hi y <? 32)
      then Some {| n_ty := promote (n_ty x); n_lo := 0; n_hi := Z.shiftr (n_hi x) (n_hi y);
                   n_den := fun r => Z.shiftr (n_den x r) (n_den y r) |} else None
    | _ => None
    end
  else None.

Definition compare (o : binop) (x y : num) : option (list Z -> bool) :=
  if plain (n_ty x) (n_lo x) (n_hi x) && plain (n_ty y) (n_lo y) (n_hi y) &&
     match common (n_ty x) (n_ty y) with Int => true | UInt => (0 <=? n_lo x) && (0 <=? n_lo y) | _ => false end then
    match o with
    | Lt => Some (fun r => n_den x r <? n_den y r)
    | Le => Some (fun r => n_den x r <=? n_den y r)
    | Gt => Some (fun r => n_den x r >? n_den y r)
    | Ge => Some (fun r => n_den x r >=? n_den y r)
    | Eq => Some (fun r => n_den x r =? n_den y r)
    | Ne => Some (fun r => negb (n_den x r =? n_den y r))
    | _ => None
    end
  else None.

Fixpoint cz (F : table) (X : ctx) (e : expr) : option num :=
  match e with
  | ELit _ z =>
    if between z z 0 0x7fffffff then Some {| n_ty := Int; n_lo := z; n_hi := z; n_den := fun _ => z |} else None
  | EVar x =>
    match index X x with
    | Some (i, v) => Some {| n_ty := x_ty v; n_lo := x_lo v; n_hi := x_hi v; n_den := fun r => nth i r 0 |}
    | None => None
    end
  | ECompl a =>
    match cz F X a with
    | Some x =>
      if plain (n_ty x) (n_lo x) (n_hi x) && match promote (n_ty x) with Int => true | _ => false end
      then Some {| n_ty := Int; n_lo := - n_hi x - 1; n_hi := - n_lo x - 1; n_den := fun r => Z.lnot (n_den x r) |}
      else None
    | None => None
    end
  | EBin o a b =>
    match cz F X a, cz F X b with Some x, Some y => arith o x y | _, _ => None end
  | ECast (TI t) a =>
    match cz F X a, wrap t with
    | Some x, Some w =>
      if narrows x t then Some {| n_ty := t; n_lo := 0; n_hi := top t; n_den := fun r => w (n_den x r) |} else None
    | _, _ => None
    end
  | ECall f [a] =>
    match cz F X a, index X f with
    | Some x, None =>
      match callee F f (n_ty x) with
      | Some (FZ t d) =>
        if pattern (n_ty x) (n_lo x) (n_hi x) && match wrap t with Some _ => true | None => false end
        then Some {| n_ty := t; n_lo := 0; n_hi := top t; n_den := fun r => d (n_den x r) |} else None
      | _ => None
      end
    | _, _ => None
    end
  | _ => None
  end.

Fixpoint cb (F : table) (X : ctx) (e : expr) : option (list Z -> bool) :=
  match e with
  | EBool b => Some (fun _ => b)
  | ENot a => match cb F X a with Some p => Some (fun r => negb (p r)) | None => None end
  | EAnd a b => match cb F X a, cb F X b with Some p, Some q => Some (fun r => p r && q r) | _, _ => None end
  | EOr a b => match cb F X a, cb F X b with Some p, Some q => Some (fun r => p r || q r) | _, _ => None end
  | ECond c a b =>
    match cb F X c, cb F X a, cb F X b with
    | Some p, Some q, Some s => Some (fun r => if p r then q r else s r)
    | _, _, _ => None
    end
  | EBin o a b =>
    match cz F X a, cz F X b with Some x, Some y => compare o x y | _, _ => None end
  | ECall f [a] =>
    match cz F X a, index X f with
    | Some x, None =>
      match callee F f (n_ty x) with
      | Some (FB d) => if pattern (n_ty x) (n_lo x) (n_hi x) then Some (fun r => d (n_den x r)) else None
      | _ => None
      end
    | _, _ => None
    end
  | _ => None
  end.

(* the initialiser of a variable, converted to its type *)
Definition initial (t : ty) (n : num) : option num :=
  match t with
  | TAuto => Some n
  | TI t =>
    if ity_eqb (n_ty n) t && match wrap t with Some _ => true | None => false end then Some n
    else if plain (n_ty n) (n_lo n) (n_hi n) && plain t (n_lo n) (n_hi n)
    then Some {| n_ty := t; n_lo := n_lo n; n_hi := n_hi n; n_den := n_den n |}
    else match wrap t with
         | Some w => if narrows n t then Some {| n_ty := t; n_lo := 0; n_hi := top t; n_den := fun r => w (n_den n r) |} else None
         | None => None
         end
  | _ => None
  end.

Fixpoint replace {A} (l : list A) (i : nat) (x : A) : list A :=
  match l, i with
  | [], _ => []
  | _ :: l', O => x :: l'
  | y :: l', S i' => y :: replace l' i' x
  end.

Definition label_in (z : Z) (l : list (option Z)) : bool :=
  match l with
  | Some k :: l' => fold_left (fun b x => b || match x with Some k => z =? k | None => false end) l' (z =? k)
  | _ => false
  end.
Definition labels_ok (l : list (option Z)) : bool :=
  forallb (fun x => match x with Some k => between k k 0 0x7fffffff | None => false end) l.

Section Statements.
Context {A : Type} (F : table) (ret : ctx -> expr -> option (list Z -> A)).

(* what comes after a block *)
Definition out (X : ctx) (k : ctx -> option (list Z -> A)) (X' : ctx) : option (list Z -> A) :=
  let n := (List.length X' - List.length X)%nat in
  match k (skipn n X') with Some d => Some (fun r => d (skipn n r)) | None => None end.

Definition pick_with (entry : stmt -> option (list Z -> A)) (n : num) : stmt -> option (list Z -> A) -> option (list Z -> A) :=
  fix pick (s : stmt) (other : option (list Z -> A)) {struct s} : option (list Z -> A) :=
    match s with
    | SCase l a s' =>
      if is_default l
      then match l, target is_default s' with [None], None => pick s' (entry s) | _, _ => None end
      else match entry s, pick s' other, labels_ok l with
           | Some d, Some r, true => Some (fun e => if label_in (n_den n e) l then d e else r e)
           | _, _, _ => None
           end
    | _ => other
    end.

(* [kn]: what comes next; [kb]: what comes after break *)
Fixpoint cs (s : stmt) (kn kb : ctx -> option (list Z -> A)) (X : ctx) {struct s} : option (list Z -> A) :=
  match s with
  | SSkip => kn X
  | SDecl t x (Some a) =>
    match cz F X a with
    | Some n =>
      match initial t n with
      | Some n =>
        match kn ({| x_name := x; x_ty := n_ty n; x_lo := n_lo n; x_hi := n_hi n |} :: X) with
        | Some d => Some (fun r => d (n_den n r :: r))
        | None => None
        end
      | None => None
      end
    | None => None
    end
  | SExpr (EOpAssign o x a) =>
    match index X x, cz F X a with
    | Some (i, v), Some y =>
      match arith o {| n_ty := x_ty v; n_lo := x_lo v; n_hi := x_hi v; n_den := fun r => nth i r 0 |} y with
      | Some n =>
        if plain (n_ty n) (n_lo n) (n_hi n) && plain (x_ty v) (n_lo n) (n_hi n)
        then match kn (replace X i {| x_name := x_name v; x_ty := x_ty v; x_lo := n_lo n; x_hi := n_hi n |}) with
             | Some d => Some (fun r => d (replace r i (n_den n r)))
             | None => None
             end
        else None
      | None => None
      end
    | _, _ => None
    end
  | SSeq a b => cs a (cs b kn kb) kb X
  | SCase _ a b => cs a (cs b kn kb) kb X
  | SBlock a => cs a (out X kn) (out X kb) X
  | SIf c a b =>
    match cb F X c, cs a (out X kn) (out X kb) X, cs b (out X kn) (out X kb) X with
    | Some p, Some d, Some d' => Some (fun r => if p r then d r else d' r)
    | _, _, _ => None
    end
  | SSwitch x c =>
    match cz F X x with
    | Some n =>
      if plain (n_ty n) (n_lo n) (n_hi n) && is_int (promote (n_ty n))
      then pick_with (fun s => cs s (out X kn) (out X kn) X) n c (kn X)
      else None
    | None => None
    end
  | SBreak => kb X
  | SReturn (Some e) => ret X e
  | _ => None
  end.
End Statements.

Definition ret_z (F : table) (t : ity) (X : ctx) (e : expr) : option (list Z -> Z) :=
  match e with
  | ELit _ z => if between z z 0 0x7fffffff && between z z 0 (top t) then Some (fun _ => z) else None
  | _ =>
    match cz F X e with
    | Some n =>
      if ity_eqb (n_ty n) t then (if pattern t (n_lo n) (n_hi n) then Some (n_den n) else None)
      else match wrap t with
           | Some w => if narrows n t then Some (fun r => w (n_den n r)) else None
           | None => None
           end
    | None => None
    end
  end.

Definition never {A} (_ : ctx) : option (list Z -> A) := None.

Definition compile (F : table) (f : fundef) : option fn :=
  match f_params f with
  | [{| p_ty := TI t; p_ref := false; p_name := x; p_default := None |}] =>
    match wrap t with
    | None => None
    | Some _ =>
      let X := [{| x_name := x; x_ty := t; x_lo := 0; x_hi := top t |}] in
      match f_ret f with
      | TI Bool =>
        match cs F (cb F) (f_body f) never never X with Some d => Some (FB (fun c => d [c])) | None => None end
      | TI u =>
        match wrap u with
        | Some _ => match cs F (ret_z F u) (f_body f) never never X with Some d => Some (FZ u (fun c => d [c])) | None => None end
        | None => None
        end
      | _ => None
      end
    end
  | _ => None
  end.

Definition param_type (f : fundef) : ity := match f_params f with {| p_ty := TI t |} :: _ => t | _ => Bool end.

(* [fs] compile, one after the other, to [ds] *)
Fixpoint compiles (F : table) (fs : list fundef) (ds : list fn) : Prop :=
  match fs, ds with
  | [], [] => True
  | f :: fs', d :: ds' => compile F f = Some d /\ compiles ((f_name f, param_type f, d) :: F) fs' ds'
  | _, _ => False
  end.

(* ---------------------------------------------------------------- numbers *)

Section Sound.
Context (I : implementation).

Lemma norm_eq t z : exists q, norm I t z = z + q * 2 ^ width t.
Proof.
  unfold norm. destruct (is_signed I t).
  - exists (- ((z + 2 ^ (width t - 1)) / 2 ^ width t)).
    assert (0 < 2 ^ width t) by (destruct t; reflexivity).
    pose proof (Z.div_mod (z + 2 ^ (width t - 1)) (2 ^ width t)). lia.
  - exists (- (z / 2 ^ width t)).
    assert (0 < 2 ^ width t) by (destruct t; reflexivity).
    pose proof (Z.div_mod z (2 ^ width t)). lia.
Qed.

Lemma norm_shift t z q : norm I t (z + q * 2 ^ width t) = norm I t z.
Proof.
  unfold norm. destruct (is_signed I t).
  - replace (z + q * 2 ^ width t + 2 ^ (width t - 1)) with (z + 2 ^ (width t - 1) + q * 2 ^ width t) by ring.
    now rewrite Z_mod_plus_full.
  - apply Z_mod_plus_full.
Qed.

Lemma norm_narrow t u z : width t <= width u -> norm I t (norm I u z) = norm I t z.
Proof.
  intros H. destruct (norm_eq u z) as [q ->].
  replace (2 ^ width u) with (2 ^ (width u - width t) * 2 ^ width t).
  - rewrite Z.mul_assoc. apply norm_shift.
  - rewrite <- Z.pow_add_r; [f_equal; ring | lia | destruct t; cbn; lia].
Qed.

Lemma norm_twice t z : norm I t (norm I t z) = norm I t z.
Proof. apply norm_narrow. lia. Qed.

Lemma norm_wrapped t w z : wrap t = Some w -> norm I t (w z) = norm I t z.
Proof.
  intros H. assert (E : exists q, w z = z + q * 2 ^ width t).
  { destruct t; inversion H; subst; cbn [width];
      [exists (- (z / 256)) | exists (- (z / 256)) | exists (- (z / 0x10000)) | exists (- (z / 0x100000000))];
      unfold wrap8, wrap16, wrap32; pose proof (Z.div_mod z); lia. }
  destruct E as [q ->]. apply norm_shift.
Qed.

Lemma wrap_range t w z : wrap t = Some w -> 0 <= w z <= top t.
Proof. intros H. destruct t; inversion H; subst; unfold wrap8, wrap16, wrap32, top; cbn [width]; lia. Qed.

Lemma plain_norm t lo hi z : plain t lo hi = true -> lo <= z <= hi -> norm I t z = z.
Proof.
  intros H Hz. unfold plain, between in H. unfold norm.
  destruct t; try discriminate; cbn [is_signed width]; lia.
Qed.

Lemma plain_int t lo hi z : plain t lo hi = true -> lo <= z <= hi -> -0x80000000 <= z <= 0xffffffff.
Proof. intros H Hz. unfold plain, between in H. destruct t; try discriminate; lia. Qed.

(* ---------------------------------------------------------------- variables *)

Inductive fits_var : var -> Z -> string * binding -> Prop :=
| fits_var_intro x t lo hi z : lo <= z <= hi -> fits_var {| x_name := x; x_ty := t; x_lo := lo; x_hi := hi |} z (x, Var (VI t (norm I t z))).

Inductive agree : ctx -> list Z -> env -> Prop :=
| agree_nil : agree [] [] []
| agree_cons v X z r b e : fits_var v z b -> agree X r e -> agree (v :: X) (z :: r) (b :: e).

Lemma agree_look X r e x : agree X r e ->
  match index X x with
  | Some (i, v) => look e x = Some (Var (VI (x_ty v) (norm I (x_ty v) (nth i r 0)))) /\ x_lo v <= nth i r 0 <= x_hi v /\ x_name v = x
  | None => look e x = None
  end.
Proof.
  intros H. induction H as [|v X z r b e Hv _ IH]; [reflexivity|].
  destruct Hv. cbn [index look x_name]. destruct (String.eqb_spec x x0) as [->|].
  - cbn. auto.
  - destruct (index X x) as [[i v]|]; cbn [nth]; exact IH.
Qed.

Lemma agree_read G X r e x i v : agree X r e -> index X x = Some (i, v) ->
  read G e x = Done (VI (x_ty v) (norm I (x_ty v) (nth i r 0))).
Proof.
  intros H E. pose proof (agree_look X r e x H) as L. rewrite E in L. destruct L as (L & _).
  unfold read, name_of. rewrite L. cbv iota. rewrite L. reflexivity.
Qed.

Lemma agree_names X r e : agree X r e -> names e = List.length X /\ List.length r = List.length X.
Proof. intros H. induction H; [split; reflexivity|]. cbn [names List.length]. lia. Qed.

Lemma agree_skip n : forall X r e, agree X r e -> agree (skipn n X) (skipn n r) (drop n e).
Proof.
  induction n as [|n IH]; intros X r e H; [exact H|]. destruct H; [constructor|]. cbn [skipn drop]. auto.
Qed.

Lemma agree_leave X r e X' r' e' : agree X r e -> agree X' r' e' ->
  let n := (List.length X' - List.length X)%nat in agree (skipn n X') (skipn n r') (leave e e').
Proof.
  intros H H'. unfold leave. destruct (agree_names _ _ _ H) as [-> _]. destruct (agree_names _ _ _ H') as [-> _].
  cbv zeta. now apply agree_skip.
Qed.

Lemma agree_put X r e x i v z lo hi : agree X r e -> index X x = Some (i, v) -> lo <= z <= hi ->
  agree (replace X i {| x_name := x_name v; x_ty := x_ty v; x_lo := lo; x_hi := hi |}) (replace r i z)
        (put e x (VI (x_ty v) (norm I (x_ty v) z))).
Proof.
  intros H. revert i v. induction H as [|w X y r b e Hw H IH]; intros i v E Hz; [discriminate|].
  destruct Hw. cbn [index x_name put] in *. destruct (String.eqb_spec x x0) as [->|].
  - injection E as <- <-. cbn. constructor; [constructor; assumption | exact H].
  - destruct (index X x) as [[j u]|]; [|discriminate]. injection E as <- <-. cbn [replace].
    constructor; [now constructor | auto].
Qed.

Lemma agree_name X r e x : agree X r e -> name_of e x = x.
Proof.
  intros H. pose proof (agree_look X r e x H) as L. unfold name_of.
  destruct (index X x) as [[i v]|]; [destruct L as (-> & _); reflexivity | rewrite L; reflexivity].
Qed.

(* ---------------------------------------------------------------- arithmetic *)

Lemma land_below a b : 0 <= a -> 0 <= Z.land a b <= a.
Proof.
  intros H. split; [apply Z.land_nonneg; auto|].
  enough (0 <= a - Z.land a b) by lia.
  rewrite Z.sub_nocarry_ldiff; [apply Z.ldiff_nonneg; auto|].
  apply Z.bits_inj'. intros n Hn. rewrite Z.ldiff_spec, Z.land_spec, Z.bits_0.
  now destruct (Z.testbit a n), (Z.testbit b n).
Qed.

Lemma land_mod a b : 0 <= a < 0x100000000 -> Z.land a (b mod 0x100000000) = Z.land a b.
Proof.
  intros H. change 0x100000000 with (2 ^ 32) in *. rewrite <- Z.land_ones by lia.
  rewrite (Z.land_comm b), Z.land_assoc, Z.land_ones by lia. rewrite Z.mod_small by lia. reflexivity.
Qed.

Lemma lor_below a b m : 0 <= a <= m -> 0 <= b <= m -> 0 <= Z.lor a b <= 2 ^ (1 + Z.log2 m) - 1.
Proof.
  intros Ha Hb. split; [apply Z.lor_nonneg; lia|].
  assert (0 <= Z.log2 m) by apply Z.log2_nonneg.
  enough (Z.lor a b < 2 ^ (1 + Z.log2 m)) by lia.
  destruct (Z.eq_dec (Z.lor a b) 0) as [->|N]; [apply Z.pow_pos_nonneg; lia|].
  apply Z.log2_lt_pow2.
  - assert (0 <= Z.lor a b) by (apply Z.lor_nonneg; lia). lia.
  - rewrite Z.log2_lor by lia. assert (Z.log2 a <= Z.log2 m) by (apply Z.log2_le_mono; lia).
    assert (Z.log2 b <= Z.log2 m) by (apply Z.log2_le_mono; lia). lia.
Qed.

Lemma common_int t u lo hi lo' hi' a b : plain t lo hi = true -> plain u lo' hi' = true ->
  lo <= a <= hi -> lo' <= b <= hi' -> common t u = Int ->
  -0x80000000 <= a <= 0x7fffffff /\ -0x80000000 <= b <= 0x7fffffff /\ norm I Int a = a /\ norm I Int b = b.
Proof.
  intros H H' Ha Hb E. assert (R : -0x80000000 <= a <= 0x7fffffff /\ -0x80000000 <= b <= 0x7fffffff).
  { unfold plain, between in *. destruct t; try discriminate; destruct u; try discriminate; lia. }
  unfold norm; cbn [is_signed width]. lia.
Qed.
Lemma common_uint t u lo hi lo' hi' a b : plain t lo hi = true -> plain u lo' hi' = true ->
  lo <= a <= hi -> lo' <= b <= hi' -> common t u = UInt ->
  -0x80000000 <= a <= 0xffffffff /\ -0x80000000 <= b <= 0xffffffff.
Proof. intros H H' Ha Hb E. pose proof (plain_int _ _ _ _ H Ha). pose proof (plain_int _ _ _ _ H' Hb). lia. Qed.
Lemma norm_uint z : norm I UInt z = z mod 0x100000000.
Proof. reflexivity. Qed.
Lemma norm_int z : -0x80000000 <= z <= 0x7fffffff -> norm I Int z = z.
Proof. intros H. unfold norm. cbn [is_signed width]. lia. Qed.

Definition value_of (n : num) (r : list Z) : value := VI (n_ty n) (norm I (n_ty n) (n_den n r)).
Definition bounded (n : num) (r : list Z) : Prop := n_lo n <= n_den n r <= n_hi n.

Lemma arith_sound o x y n r : arith o x y = Some n -> bounded x r -> bounded y r ->
  bin I o (value_of x r) (value_of y r) = Done (value_of n r) /\ bounded n r.
Proof.
  unfold arith, bounded, value_of. intros H Hx Hy.
  destruct (plain (n_ty x) (n_lo x) (n_hi x)) eqn:Px; [|discriminate].
  destruct (plain (n_ty y) (n_lo y) (n_hi y)) eqn:Py; [|discriminate]. cbn [andb] in H.
  rewrite (plain_norm _ _ _ _ Px Hx), (plain_norm _ _ _ _ Py Hy).
  set (a := n_den x r) in *. set (b := n_den y r) in *.
  cbn [bin bind int_of]. unfold int_bin; cbn [fst snd].
  destruct o; try discriminate.
  - (* Add *)
    destruct (common (n_ty x) (n_ty y)) eqn:E; try discriminate.
    + destruct (plain Int _ _) eqn:P; [|discriminate]. injection H as <-. cbn [n_ty n_lo n_hi n_den]. fold a b.
      destruct (common_int _ _ _ _ _ _ _ _ Px Py Hx Hy E) as (Ra & Rb & -> & ->).
      unfold plain, between in P. unfold result, fits. cbn [is_signed width].
      assert (S : -0x80000000 <= a + b <= 0x7fffffff) by lia.
      rewrite norm_int by exact S. replace ((- 2 ^ (32 - 1) <=? a + b) && (a + b <? 2 ^ (32 - 1))) with true by lia.
      split; [reflexivity | lia].
    + destruct (_ && _) eqn:P in H; [|discriminate]. injection H as <-. cbn [n_ty n_lo n_hi n_den]. fold a b.
      destruct (common_uint _ _ _ _ _ _ _ _ Px Py Hx Hy E) as (Ra & Rb).
      unfold result. cbn [is_signed]. rewrite !norm_uint. split; [|lia].
      rewrite <- Zplus_mod. reflexivity.
  - (* Shr *)
    destruct (is_int (promote (n_ty x))) eqn:Q; [|discriminate].
    destruct (_ && _) eqn:P in H; [|discriminate]. injection H as <-. cbn [n_ty n_lo n_hi n_den andb] in *. fold a b.
    assert (N : norm I (promote (n_ty x)) a = a /\ norm I (promote (n_ty x)) (Z.shiftr a b) = Z.shiftr a b
                /\ width (promote (n_ty x)) = 32 /\ 0 <= Z.shiftr a b <= Z.shiftr (n_hi x) (n_hi y)).
    { assert (B : 0 <= b < 32 /\ b = n_hi y) by lia. destruct B as (B & ->).
      assert (S : 0 <= Z.shiftr a (n_hi y) <= a).
      { rewrite Z.shiftr_div_pow2 by lia. split; [apply Z.div_pos; [lia | apply Z.pow_pos_nonneg; lia]|].
        apply Z.div_le_upper_bound; [apply Z.pow_pos_nonneg; lia|].
        assert (1 <= 2 ^ n_hi y) by (pose proof (Z.pow_pos_nonneg 2 (n_hi y)); lia). nia. }
      assert (M : Z.shiftr a (n_hi y) <= Z.shiftr (n_hi x) (n_hi y)).
      { rewrite !Z.shiftr_div_pow2 by lia. apply Z.div_le_mono; [apply Z.pow_pos_nonneg; lia | lia]. }
      pose proof (plain_int _ _ _ _ Px Hx). unfold plain, between in Px.
      destruct (n_ty x); try discriminate; cbn [promote]; rewrite ?norm_uint; rewrite ?norm_int by lia;
        rewrite ?Z.mod_small by lia; repeat split; auto; lia. }
    destruct N as (-> & -> & W & ?). unfold shift_right. rewrite W.
    replace ((b <? 0) || (32 <=? b)) with false by lia. split; [reflexivity | lia].
  - (* BAnd *)
    destruct (common (n_ty x) (n_ty y)) eqn:E; try discriminate; cbn [is_int andb] in H;
      (destruct (0 <=? n_lo x) eqn:P; [|discriminate]); injection H as <-; cbn [n_ty n_lo n_hi n_den]; fold a b.
    all: pose proof (land_below a b ltac:(lia)) as L.
    all: assert (B : 0 <= Z.land a b <= (if 0 <=? n_lo y then Z.min (n_hi x) (n_hi y) else n_hi x))
      by (destruct (0 <=? n_lo y) eqn:Q; [pose proof (land_below b a ltac:(lia)) as L'; rewrite Z.land_comm in L'; lia | lia]).
    + destruct (common_int _ _ _ _ _ _ _ _ Px Py Hx Hy E) as (Ra & Rb & -> & ->).
      rewrite norm_int by lia. auto.
    + destruct (common_uint _ _ _ _ _ _ _ _ Px Py Hx Hy E) as (Ra & Rb).
      rewrite !norm_uint, (Z.mod_small a), land_mod, Z.mod_small by lia. auto.
  - (* BOr *)
    destruct (common (n_ty x) (n_ty y)) eqn:E; try discriminate; cbn [is_int andb] in H;
      (destruct (_ && _) eqn:P in H; [|discriminate]); injection H as <-; cbn [n_ty n_lo n_hi n_den]; fold a b.
    all: pose proof (lor_below a b (Z.max (n_hi x) (n_hi y)) ltac:(lia) ltac:(lia)) as L.
    + destruct (common_int _ _ _ _ _ _ _ _ Px Py Hx Hy E) as (Ra & Rb & -> & ->).
      pose proof (lor_below a b 0x7fffffff ltac:(lia) ltac:(lia)) as M. cbn in M.
      rewrite norm_int by lia. auto.
    + destruct (common_uint _ _ _ _ _ _ _ _ Px Py Hx Hy E) as (Ra & Rb).
      pose proof (lor_below a b 0xffffffff ltac:(lia) ltac:(lia)) as M. cbn in M.
      rewrite !norm_uint, !Z.mod_small by lia. auto.
Qed.

Lemma compare_sound o x y p r : compare o x y = Some p -> bounded x r -> bounded y r ->
  bin I o (value_of x r) (value_of y r) = Done (VB (p r)).
Proof.
  unfold compare, bounded, value_of. intros H Hx Hy.
  destruct (plain (n_ty x) (n_lo x) (n_hi x)) eqn:Px; [|discriminate].
  destruct (plain (n_ty y) (n_lo y) (n_hi y)) eqn:Py; [|discriminate]. cbn [andb] in H.
  rewrite (plain_norm _ _ _ _ Px Hx), (plain_norm _ _ _ _ Py Hy).
  cbn [bin bind int_of]. unfold int_bin; cbn [fst snd].
  destruct (common (n_ty x) (n_ty y)) eqn:E; try discriminate.
  - destruct (common_int _ _ _ _ _ _ _ _ Px Py Hx Hy E) as (Ra & Rb & -> & ->).
    destruct o; try discriminate; injection H as <-; reflexivity.
  - destruct (_ && _) eqn:P in H; [|discriminate].
    destruct (common_uint _ _ _ _ _ _ _ _ Px Py Hx Hy E) as (Ra & Rb).
    rewrite !norm_uint, !Z.mod_small by lia.
    destruct o; try discriminate; injection H as <-; reflexivity.
Qed.

Lemma narrows_sound n t w r : narrows n t = true -> wrap t = Some w -> bounded n r ->
  norm I t (norm I (n_ty n) (n_den n r)) = norm I t (w (n_den n r)) /\ 0 <= w (n_den n r) <= top t.
Proof.
  intros H W B. split; [|now apply wrap_range]. rewrite (norm_wrapped _ _ _ W). unfold narrows in H.
  destruct (plain (n_ty n) (n_lo n) (n_hi n)) eqn:P.
  - now rewrite (plain_norm _ _ _ _ P B).
  - apply norm_narrow. cbn [orb] in H. lia.
Qed.

Lemma convert_int c t w v z : wrap t = Some w -> convert I c (TI t) (VI v z) = Done (VI t (norm I t z)).
Proof. intros W. destruct t; try discriminate; reflexivity. Qed.

Lemma convert_plain c t lo hi v z : plain t lo hi = true -> convert I c (TI t) (VI v z) = Done (VI t (norm I t z)).
Proof. intros W. destruct t; try discriminate; reflexivity. Qed.

(* ---------------------------------------------------------------- expressions *)

Section Calls.
Context (R : calls) (G : list (string * value)) (F : table).

Definition fn_value (d : fn) (c : Z) : value :=
  match d with FZ t d => VI t (norm I t (d c)) | FB d => VB (d c) end.
Definition fn_bounded (d : fn) (c : Z) : Prop :=
  match d with FZ t d => 0 <= d c <= top t | FB _ => True end.

(* a function does what its translation does *)
Definition does (f : string) (t : ity) (d : fn) : Prop :=
  forall c, 0 <= c <= top t -> R f [VI t (norm I t c)] = Done (fn_value d c, [None]) /\ fn_bounded d c.

Hypothesis HF : forall f t d, In (f, t, d) F -> does f t d.

Lemma ity_eqb_eq t u : ity_eqb t u = true -> t = u.
Proof. destruct t, u; try discriminate; reflexivity. Qed.

Lemma callee_in f t d : callee F f t = Some d -> does f t d.
Proof.
  intros H. apply HF. clear HF. induction F as [|[[g u] h] F' IH]; [discriminate|]. cbn [callee] in H.
  destruct (ity_eqb t u) eqn:E; [|right; auto].
  destruct (String.eqb_spec f g) as [->|]; [|right; auto].
  injection H as <-. apply ity_eqb_eq in E. subst. left. reflexivity.
Qed.

Lemma pattern_range t lo hi z : pattern t lo hi = true -> lo <= z <= hi -> 0 <= z <= top t.
Proof. unfold pattern, between. intros H Hz. destruct t; try discriminate; lia. Qed.

Lemma eval_call X r e f a n d : agree X r e -> eval I R G a e = Done (value_of n r, e) -> bounded n r ->
  index X f = None -> callee F f (n_ty n) = Some d -> pattern (n_ty n) (n_lo n) (n_hi n) = true ->
  eval I R G (ECall f [a]) e = Done (fn_value d (n_den n r), e) /\ fn_bounded d (n_den n r).
Proof.
  intros A V B L C P. destruct (callee_in _ _ _ C (n_den n r)) as [D S]; [exact (pattern_range _ _ _ _ P B)|].
  split; [|exact S]. cbn [eval]. rewrite V. cbn [bind]. unfold apply.
  pose proof (agree_look _ _ _ f A) as N. rewrite L in N. rewrite (agree_name _ _ _ _ A), N.
  unfold value_of. rewrite D. cbn [bind fst snd write_back]. destruct a; reflexivity.
Qed.

Lemma cz_sound X r e : agree X r e -> forall a n, cz F X a = Some n ->
  eval I R G a e = Done (value_of n r, e) /\ bounded n r.
Proof.
  intros A. fix IH 1. intros a n H. destruct a; try discriminate; cbn [cz] in H.
  - (* ELit *)
    destruct (between z z 0 _) eqn:B; [|discriminate]. injection H as <-.
    unfold value_of, bounded, between in *. cbn [n_ty n_lo n_hi n_den eval]. split; [|lia].
    rewrite norm_int by lia. unfold literal_type.
    destruct (Z.compare_spec z 0x80000000); [lia | reflexivity | lia].
  - (* EVar *)
    destruct (index X x) as [[i v]|] eqn:E; [|discriminate]. injection H as <-.
    cbn [eval]. rewrite (agree_read G _ _ _ _ _ _ A E).
    pose proof (agree_look _ _ _ x A) as L. rewrite E in L. destruct L as (_ & L & _).
    split; [reflexivity | exact L].
  - (* ECompl *)
    destruct (cz F X a) as [x|] eqn:E; [|discriminate]. destruct (IH _ _ E) as [V B].
    destruct (plain _ _ _) eqn:P; [|discriminate]. destruct (promote (n_ty x)) eqn:Q; try discriminate.
    injection H as <-. cbn [eval]. rewrite V. unfold value_of at 1. cbn [bind int_of fst snd]. rewrite Q.
    unfold bounded, value_of in *. cbn [n_ty n_lo n_hi n_den].
    rewrite (plain_norm _ _ _ _ P B).
    assert (S : -0x80000000 <= n_den x r <= 0x7fffffff).
    { unfold plain, between in P. destruct (n_ty x); try discriminate; lia. }
    rewrite (norm_int (n_den x r)) by lia. unfold Z.lnot. split; [reflexivity | lia].
  - (* EBin *)
    destruct (cz F X a1) as [x|] eqn:E1; [|discriminate]. destruct (cz F X a2) as [y|] eqn:E2; [|discriminate].
    destruct (IH _ _ E1) as [V1 B1]. destruct (IH _ _ E2) as [V2 B2].
    destruct (arith_sound _ _ _ _ _ H B1 B2) as [V B].
    cbn [eval]. rewrite V1. cbn [bind]. rewrite V2. cbn [bind]. split; [|exact B].
    change (bind (bin I o (value_of x r) (value_of y r)) (fun r => Done (r, e)) = Done (value_of n r, e)).
    rewrite V. reflexivity.
  - (* ECast *)
    destruct t; try discriminate.
    destruct (cz F X a) as [x|] eqn:E; [|discriminate]. destruct (IH _ _ E) as [V B].
    destruct (wrap t) as [w|] eqn:W; [|discriminate]. destruct (narrows x t) eqn:N; [|discriminate].
    injection H as <-. destruct (narrows_sound _ _ _ _ N W B) as [Q S].
    cbn [eval]. rewrite V. cbn [bind]. unfold value_of at 1. rewrite (convert_int _ _ _ _ _ W). cbn [bind].
    unfold value_of, bounded. cbn [n_ty n_lo n_hi n_den]. rewrite Q. auto.
  - (* ECall *)
    destruct args as [|a [|? ?]]; try discriminate.
    destruct (cz F X a) as [x|] eqn:E; [|discriminate]. destruct (IH _ _ E) as [V B].
    destruct (index X f) eqn:L; [discriminate|]. destruct (callee F f (n_ty x)) as [[t d|]|] eqn:C; try discriminate.
    destruct (pattern _ _ _) eqn:P; [|discriminate]. destruct (wrap t) eqn:W; [|discriminate].
    injection H as <-. exact (eval_call _ _ _ _ _ _ _ A V B L C P).
Qed.

Lemma cb_sound X r e : agree X r e -> forall a p, cb F X a = Some p -> eval I R G a e = Done (VB (p r), e).
Proof.
  intros A. fix IH 1. intros a p H. destruct a; try discriminate; cbn [cb] in H.
  - injection H as <-. reflexivity.
  - destruct (cb F X a) as [q|] eqn:E; [|discriminate]. injection H as <-. cbn [eval]. now rewrite (IH _ _ E).
  - destruct (cz F X a1) as [x|] eqn:E1; [|discriminate]. destruct (cz F X a2) as [y|] eqn:E2; [|discriminate].
    destruct (cz_sound _ _ _ A _ _ E1) as [V1 B1]. destruct (cz_sound _ _ _ A _ _ E2) as [V2 B2].
    pose proof (compare_sound _ _ _ _ _ H B1 B2) as V.
    cbn [eval]. rewrite V1. cbn [bind]. rewrite V2. cbn [bind].
    change (bind (bin I o (value_of x r) (value_of y r)) (fun r => Done (r, e)) = Done (VB (p r), e)).
    rewrite V. reflexivity.
  - destruct (cb F X a1) as [q|] eqn:E1; [|discriminate]. destruct (cb F X a2) as [s|] eqn:E2; [|discriminate].
    injection H as <-. cbn [eval]. rewrite (IH _ _ E1). cbn [bind truth].
    destruct (q r); [|reflexivity]. rewrite (IH _ _ E2). reflexivity.
  - destruct (cb F X a1) as [q|] eqn:E1; [|discriminate]. destruct (cb F X a2) as [s|] eqn:E2; [|discriminate].
    injection H as <-. cbn [eval]. rewrite (IH _ _ E1). cbn [bind truth].
    destruct (q r); [reflexivity|]. rewrite (IH _ _ E2). reflexivity.
  - destruct (cb F X a1) as [q|] eqn:E1; [|discriminate]. destruct (cb F X a2) as [s|] eqn:E2; [|discriminate].
    destruct (cb F X a3) as [t|] eqn:E3; [|discriminate].
    injection H as <-. cbn [eval]. rewrite (IH _ _ E1). cbn [bind truth].
    destruct (q r).
    + rewrite (IH _ _ E2). cbn [bind]. rewrite (IH _ _ E3). reflexivity.
    + rewrite (IH _ _ E3). cbn [bind]. rewrite (IH _ _ E2). reflexivity.
  - destruct args as [|a [|? ?]]; try discriminate.
    destruct (cz F X a) as [x|] eqn:E; [|discriminate]. destruct (cz_sound _ _ _ A _ _ E) as [V B].
    destruct (index X f) eqn:L; [discriminate|]. destruct (callee F f (n_ty x)) as [[|d]|] eqn:C; try discriminate.
    destruct (pattern _ _ _) eqn:P; [|discriminate]. injection H as <-.
    exact (proj1 (eval_call _ _ _ _ _ _ _ A V B L C P)).
Qed.

(* ---------------------------------------------------------------- statements *)

Lemma initial_sound t n n' r c : initial t n = Some n' -> bounded n r ->
  convert I c t (value_of n r) = Done (value_of n' r) /\ bounded n' r.
Proof.
  unfold initial. intros H B. destruct t; try discriminate.
  - destruct (_ && _) eqn:E in H.
    { injection H as <-. apply andb_prop in E as [E W]. apply ity_eqb_eq in E. subst t. split; [|exact B]. unfold value_of.
      destruct (wrap (n_ty n)) as [w|] eqn:W'; [|discriminate]. rewrite (convert_int _ _ _ _ _ W'), norm_twice. reflexivity. }
    destruct (_ && _) eqn:P in H.
    { injection H as <-. apply andb_prop in P as [P P']. unfold value_of, bounded in *. cbn [n_ty n_lo n_hi n_den].
      rewrite (convert_plain _ _ _ _ _ _ P'), (plain_norm _ _ _ _ P B), (plain_norm _ _ _ _ P' B). auto. }
    destruct (wrap t) as [w|] eqn:W; [|discriminate]. destruct (narrows n t) eqn:N; [|discriminate]. injection H as <-.
    destruct (narrows_sound _ _ _ _ N W B) as [Q S]. unfold value_of, bounded. cbn [n_ty n_lo n_hi n_den].
    rewrite (convert_int _ _ _ _ _ W), Q. auto.
  - injection H as <-. auto.
Qed.

Lemma label_in_spec t z l : is_int t = true -> labels_ok l = true -> label_in z l = labelled I t z l.
Proof.
  intros T H. assert (N : forall k, between k k 0 0x7fffffff = true -> norm I t k = k).
  { intros k B. unfold between in B. destruct t; try discriminate; [apply norm_int; lia|].
    rewrite norm_uint. apply Z.mod_small. lia. }
  destruct l as [|[k|] l]; [reflexivity | | discriminate]. cbn [label_in labelled existsb labels_ok forallb] in *.
  apply andb_prop in H as [K H]. unfold labelled. rewrite (N k K), (Z.eqb_sym k z).
  generalize (z =? k) as b. revert H. induction l as [|[m|] l IH]; intros H b; [now rewrite orb_false_r | | discriminate].
  cbn [fold_left existsb forallb] in *. apply andb_prop in H as [M H].
  rewrite (IH H), (N m M), (Z.eqb_sym m z), orb_assoc. reflexivity.
Qed.

Section Stmt.
Context {A : Type} (ret : ctx -> expr -> option (list Z -> A)) (answers : value -> A -> Prop) (fuel : nat).
Hypothesis Hret : forall X r e x d, agree X r e -> ret X x = Some d ->
  exists v, eval I R G x e = Done (v, e) /\ answers v (d r).

Notation cont := (ctx -> option (list Z -> A)).

Definition lands (k : cont) (e : env) (a : A) : Prop :=
  exists X r d, agree X r e /\ k X = Some d /\ d r = a.
Definition good (o : outcome (ending * env)) (a : A) (kn kb : cont) : Prop :=
  match o with
  | Done (Next, e) => lands kn e a
  | Done (Broken, e) => lands kb e a
  | Done (Returned v, _) => answers v a
  | _ => False
  end.

Lemma lands_out X r e k e' a : agree X r e -> lands (out X k) e' a -> lands k (leave e e') a.
Proof.
  intros A0 (X' & r' & d & A1 & K & E). unfold out in K.
  destruct (k _) as [d'|] eqn:K' in K; [|discriminate]. injection K as <-.
  exists (skipn (List.length X' - List.length X) X'), (skipn (List.length X' - List.length X) r'), d'.
  split; [exact (agree_leave _ _ _ _ _ _ A0 A1) | auto].
Qed.

Lemma good_scoped X r e f a kn kb : agree X r e -> good (f e) a (out X kn) (out X kb) -> good (scoped f e) a kn kb.
Proof.
  intros A0 H. unfold scoped. destruct (f e) as [[[| |v] e']| |]; cbn [bind good] in *;
    [eapply lands_out; eassumption | eapply lands_out; eassumption | exact H | exact H | exact H].
Qed.

Definition sound (s : stmt) : Prop := forall kn kb X r e d, agree X r e -> cs F ret s kn kb X = Some d ->
  good (exec I R G fuel s e) (d r) kn kb.

Lemma seq_sound a b : sound a -> sound b -> forall kn kb X r e d, agree X r e ->
  cs F ret a (cs F ret b kn kb) kb X = Some d ->
  good (do (x, e) <- exec I R G fuel a e; match x with Next => exec I R G fuel b e | _ => Done (x, e) end) (d r) kn kb.
Proof.
  intros Ha Hb kn kb X r e d A0 H. specialize (Ha _ _ _ _ _ _ A0 H).
  destruct (exec I R G fuel a e) as [[[| |v] e']| |]; cbn [bind good] in *; try contradiction; try exact Ha.
  destruct Ha as (X' & r' & d' & A1 & K & <-). exact (Hb _ _ _ _ _ _ A1 K).
Qed.

(* the statement from the n-th labels on *)
Fixpoint from (n : nat) (s : stmt) : stmt :=
  match n, s with S n', SCase _ _ s' => from n' s' | _, _ => s end.
Fixpoint tails (P : stmt -> Prop) (s : stmt) : Prop :=
  P s /\ match s with SCase _ _ s' => tails P s' | _ => True end.
Lemma tails_from P n : forall s, tails P s -> P (from n s).
Proof. induction n as [|n IH]; intros s H; [destruct s; apply H|]. destruct s; try apply H. apply IH, H. Qed.

Lemma exec_switch x c e :
  exec I R G fuel (SSwitch x c) e =
  do (v, e) <- eval I R G x e; do k <- int_of v;
  let t := promote (fst k) in
  match jump I t (norm I t (snd k)) c with
  | None => Done (Next, e)
  | Some n => do (r, e) <- scoped (exec I R G fuel (from n c)) e; Done (match r with Broken => Next | _ => r end, e)
  end.
Proof.
  cbn [exec]. destruct (eval I R G x e) as [[v e']| |]; [|reflexivity|reflexivity]. cbn [bind].
  destruct (int_of v) as [k| |]; [|reflexivity|reflexivity]. cbn [bind]. cbv zeta.
  destruct (jump _ _ _ _) as [n|]; [|reflexivity].
  match goal with |- bind (scoped ?f _) _ = bind (scoped ?g _) _ => enough (E : f = g) by now rewrite E end.
  revert n. induction c; intros [|m]; try reflexivity. cbn [from]. auto.
Qed.

Lemma pick_sound X r e kn n c : agree X r e -> bounded n r -> is_int (promote (n_ty n)) = true ->
  let k := n_den n r in
  let t := promote (n_ty n) in
  let entry := fun s => cs F ret s (out X kn) (out X kn) X in
  forall other d, pick_with entry n c other = Some d ->
  match jump I t k c with
  | Some m => exists d', entry (from m c) = Some d' /\ d r = d' r
  | None => exists d', other = Some d' /\ d r = d' r
  end.
Proof.
  intros A0 B T k t entry. unfold jump. induction c; intros other d H;
    try (cbn [pick_with Semantics.target] in *; exists d; split; [exact H | reflexivity]).
  cbn [pick_with Semantics.target] in *.
  destruct (is_default l) eqn:D.
  - destruct l as [|[z|] [|? ?]]; try discriminate. destruct (target is_default c2) eqn:T2; [discriminate|].
    cbn [labelled existsb]. change (labelled I t k [None]) with false. cbv iota.
    specialize (IHc2 _ _ H). rewrite ?T2 in IHc2.
    destruct (target (labelled I t k) c2) as [m|]; exact IHc2.
  - destruct (entry (SCase l c1 c2)) as [d1|] eqn:E1; [|discriminate].
    destruct (pick_with entry n c2 other) as [d2|] eqn:E2; [|discriminate].
    destruct (labels_ok l) eqn:L; [|discriminate]. injection H as <-.
    specialize (IHc2 _ _ E2). fold k. rewrite (label_in_spec t k l T L).
    destruct (labelled I t k l); [exists d1; auto|].
    destruct (target (labelled I t k) c2) as [m|]; [exact IHc2|].
    destruct (target is_default c2) as [m|]; exact IHc2.
Qed.

Lemma good_break o a kn : good o a kn kn ->
  good (do (r, e) <- o; Done (match r with Broken => Next | _ => r end, e)) a kn (fun _ => None).
Proof. destruct o as [[[| |v] e]| |]; cbn; auto. Qed.

Lemma good_any_break o a kn kb : good o a kn (fun _ => None) -> good o a kn kb.
Proof. destruct o as [[[| |v] e]| |]; cbn; auto. intros (X & r & d & _ & H & _). discriminate. Qed.

Theorem cs_sound s : sound s.
Proof.
  enough (H : tails sound s) by (destruct s; apply H).
  induction s; cbn [tails]; (split; [|first [exact I0 | assumption | exact Logic.I]]); unfold sound; intros kn kb X r e0 d A0 H;
    try discriminate; cbn [cs] in H.
  - exists X, r, d. auto.
  - (* SExpr *)
    destruct e; try discriminate. cbn [cs] in H. destruct (index X x) as [[i v]|] eqn:L; [|discriminate].
    destruct (cz F X e) as [y|] eqn:E; [|discriminate]. destruct (cz_sound _ _ _ A0 _ _ E) as [V B].
    destruct (arith o _ y) as [n|] eqn:Ar; [|discriminate].
    pose proof (agree_look _ _ _ x A0) as Lk. rewrite L in Lk. destruct Lk as (Lk & Bv & Nv).
    destruct (arith_sound _ _ _ _ r Ar Bv B) as [Va Ba].
    destruct (_ && _) eqn:P in H; [|discriminate]. apply andb_prop in P as [P P'].
    destruct (kn _) as [d'|] eqn:K in H; [|discriminate]. injection H as <-.
    cbn [exec eval]. rewrite V. cbn [bind]. rewrite (agree_read G _ _ _ _ _ _ A0 L). cbn [bind].
    change (VI (x_ty v) (norm I (x_ty v) (nth i r 0)))
      with (value_of {| n_ty := x_ty v; n_lo := x_lo v; n_hi := x_hi v; n_den := fun r => nth i r 0 |} r).
    rewrite Va. cbn [bind]. unfold value_of at 1. cbn [n_ty n_den].
    unfold value_of. rewrite (convert_plain _ _ _ _ _ _ P'). cbn [bind good].
    rewrite (plain_norm _ _ _ _ P Ba). unfold set. rewrite (agree_name _ _ _ _ A0).
    exists (replace X i {| x_name := x_name v; x_ty := x_ty v; x_lo := n_lo n; x_hi := n_hi n |}), (replace r i (n_den n r)), d'.
    split; [exact (agree_put _ _ _ _ _ _ _ _ _ A0 L Ba) | auto].
  - (* SDecl *)
    destruct e as [a|]; [|discriminate].
    destruct (cz F X a) as [n|] eqn:E; [|discriminate]. destruct (cz_sound _ _ _ A0 _ _ E) as [V B].
    destruct (initial t n) as [n'|] eqn:In; [|discriminate].
    destruct (initial_sound _ _ _ _ (type_c e0) In B) as [V' B'].
    destruct (kn _) as [d'|] eqn:K in H; [|discriminate]. injection H as <-.
    cbn [exec]. rewrite V. cbn [bind]. rewrite V'. cbn [bind good].
    exists ({| x_name := x; x_ty := n_ty n'; x_lo := n_lo n'; x_hi := n_hi n' |} :: X), (n_den n' r :: r), d'.
    split; [constructor; [now constructor | exact A0] | auto].
  - (* SSeq *)
    cbn [exec]. eapply seq_sound; eauto; [destruct s1; apply IHs1 | destruct s2; apply IHs2].
  - (* SBlock *)
    cbn [exec]. eapply good_scoped; [exact A0|]. destruct s; eapply (proj1 IHs); eassumption.
  - (* SIf *)
    destruct (cb F X c) as [p|] eqn:E; [|discriminate].
    destruct (cs F ret s1 _ _ X) as [d1|] eqn:E1; [|discriminate].
    destruct (cs F ret s2 _ _ X) as [d2|] eqn:E2; [|discriminate]. injection H as <-.
    cbn [exec]. unfold condition. rewrite (cb_sound _ _ _ A0 _ _ E). cbn [bind truth].
    destruct (p r); (eapply good_scoped; [exact A0|]).
    + assert (S : sound s1) by (destruct s1; apply IHs1). exact (S _ _ _ _ _ _ A0 E1).
    + assert (S : sound s2) by (destruct s2; apply IHs2). exact (S _ _ _ _ _ _ A0 E2).
  - (* SSwitch *)
    destruct (cz F X e) as [n|] eqn:E; [|discriminate]. destruct (cz_sound _ _ _ A0 _ _ E) as [V B].
    destruct (_ && _) eqn:P in H; [|discriminate]. apply andb_prop in P as [P T].
    rewrite exec_switch, V. cbn [bind]. unfold value_of. cbn [int_of bind fst snd]. cbv zeta.
    rewrite (plain_norm _ _ _ _ P B).
    assert (N : norm I (promote (n_ty n)) (n_den n r) = n_den n r).
    { unfold plain, between, bounded in *. destruct (n_ty n); try discriminate; cbn [promote];
        rewrite ?norm_uint, ?norm_int by lia; rewrite ?Z.mod_small by lia; reflexivity. }
    rewrite N.
    pose proof (pick_sound _ _ _ _ _ _ A0 B T _ _ H) as Pk. cbv zeta in Pk.
    destruct (jump I (promote (n_ty n)) (n_den n r) s) as [m|].
    + destruct Pk as (d' & E' & ->). apply good_any_break, good_break.
      eapply good_scoped; [exact A0|].
      pose proof (tails_from sound m s IHs) as S. exact (S _ _ _ _ _ _ A0 E').
    + destruct Pk as (d' & E' & ->). cbn [good]. exists X, r, d'. auto.
  - (* SCase *)
    cbn [exec]. eapply seq_sound; eauto; [destruct s1; apply IHs1 | destruct s2; apply IHs2].
  - exists X, r, d. auto.
  - destruct e as [a|]; [|discriminate]. destruct (Hret _ _ _ _ _ A0 H) as (v & V & An).
    cbn [exec]. rewrite V. exact An.
Qed.
End Stmt.

(* ---------------------------------------------------------------- functions *)

Lemma ret_b_sound X r e x p : agree X r e -> cb F X x = Some p ->
  exists v, eval I R G x e = Done (v, e) /\ v = VB (p r).
Proof. intros A0 H. eexists. split; [exact (cb_sound _ _ _ A0 _ _ H) | reflexivity]. Qed.

Lemma ret_z_sound t w X r e x d : wrap t = Some w -> agree X r e -> ret_z F t X x = Some d ->
  exists v, eval I R G x e = Done (v, e) /\ convert I None (TI t) v = Done (VI t (norm I t (d r))) /\ 0 <= d r <= top t.
Proof.
  intros W A0 H.
  assert (K : forall n, cz F X x = Some n -> forall d,
    (if ity_eqb (n_ty n) t then (if pattern t (n_lo n) (n_hi n) then Some (n_den n) else None)
     else if narrows n t then Some (fun r => w (n_den n r)) else None) = Some d ->
    exists v, eval I R G x e = Done (v, e) /\ convert I None (TI t) v = Done (VI t (norm I t (d r))) /\ 0 <= d r <= top t).
  { intros n E d0 H0. destruct (cz_sound _ _ _ A0 _ _ E) as [V B]. exists (value_of n r). split; [exact V|].
    unfold value_of. rewrite (convert_int _ _ _ _ _ W).
    destruct (ity_eqb (n_ty n) t) eqn:Q.
    - apply ity_eqb_eq in Q. destruct (pattern _ _ _) eqn:P; [|discriminate]. injection H0 as <-.
      rewrite Q, norm_twice. split; [reflexivity | exact (pattern_range _ _ _ _ P B)].
    - destruct (narrows n t) eqn:N; [|discriminate]. injection H0 as <-.
      destruct (narrows_sound _ _ _ _ N W B) as [-> S]. auto. }
  unfold ret_z in H. rewrite W in H.
  destruct x; try (destruct (cz F X _) as [n|] eqn:E in H; [exact (K n E d H) | discriminate]).
  destruct (_ && _) eqn:B in H; [|discriminate]. injection H as <-. unfold between in B.
  eexists. cbn [eval]. split; [reflexivity|]. rewrite (convert_int _ _ _ _ _ W). split; [reflexivity | lia].
Qed.

Lemma compile_sound fuel f d : compile F f = Some d -> forall c, 0 <= c <= top (param_type f) ->
  invoke I G R fuel f [VI (param_type f) (norm I (param_type f) c)] = Done (fn_value d c, [None]) /\ fn_bounded d c.
Proof.
  unfold compile, param_type. intros H c Hc.
  destruct (f_params f) as [|[pt ref x def] [|p ps]] eqn:P;
    [discriminate | | destruct pt; try discriminate; destruct ref; try discriminate; destruct def; discriminate].
  destruct pt; try discriminate; destruct ref; try discriminate; destruct def; try discriminate.
  rename t into pt. destruct (wrap pt) as [w|] eqn:W; [|discriminate].
  set (X := [_]) in H. set (e := [(x, Var (VI pt (norm I pt c)))]).
  assert (A0 : agree X [c] e) by (repeat constructor; apply Hc).
  assert (Inv : invoke I G R fuel f [VI pt (norm I pt c)] =
    do (r, e) <- exec I R G fuel (f_body f) e;
    do v <- (match r with
             | Returned v => match f_ret f with TVoid => Done VVoid | t => convert I None t v end
             | _ => match f_ret f with TVoid => Done VVoid | _ => Undefined end
             end);
    Done (v, [None])).
  { unfold invoke. rewrite P. cbn [deduce p_ty]. cbn [bind_params p_ty p_name]. rewrite (convert_int _ _ _ _ _ W), norm_twice.
    cbn [bind both]. reflexivity. }
  rewrite Inv. destruct (f_ret f) eqn:Rt; try discriminate.
  destruct (ity_eqb t Bool) eqn:TB.
  - apply ity_eqb_eq in TB. subst t. destruct (cs F (cb F) (f_body f) never never X) as [q|] eqn:E; [|discriminate].
    injection H as <-.
    pose proof (cs_sound (cb F) (fun v a => v = VB a) fuel ret_b_sound _ _ _ _ _ _ _ A0 E) as Gd.
    destruct (exec I R G fuel (f_body f) e) as [[[| |v] e']| |]; cbn [good] in Gd; try contradiction;
      try (destruct Gd as (? & ? & ? & _ & K & _); discriminate).
    cbn in Gd. subst v. split; [reflexivity | exact Logic.I].
  - assert (H' : match wrap t with Some _ => match cs F (ret_z F t) (f_body f) never never X with Some d => Some (FZ t (fun c => d [c])) | None => None end | None => None end = Some d).
    { destruct t; try discriminate; exact H. }
    clear H. destruct (wrap t) as [w'|] eqn:W'; [|discriminate].
    destruct (cs F (ret_z F t) (f_body f) never never X) as [q|] eqn:E; [|discriminate]. injection H' as <-.
    pose proof (cs_sound (ret_z F t) (fun v a => convert I None (TI t) v = Done (VI t (norm I t a)) /\ 0 <= a <= top t) fuel
      (fun X r e x d A0 H => ret_z_sound t w' X r e x d W' A0 H) _ _ _ _ _ _ _ A0 E) as Gd.
    destruct (exec I R G fuel (f_body f) e) as [[[| |v] e']| |]; cbn [good] in Gd; try contradiction;
      try (destruct Gd as (? & ? & ? & _ & K & _); discriminate).
    destruct Gd as [Cv Bd]. cbn [bind]. rewrite Cv. split; [reflexivity | exact Bd].
Qed.
End Calls.

(* ---------------------------------------------------------------- programs *)

Section Programs.
Context (G : list (string * value)) (ext : string -> list value -> option value) (all : list fundef).

(* overload resolution finds f *)
Definition found (f : fundef) : Prop :=
  forall z, ext (f_name f) [VI (param_type f) z] = None /\ select all (f_name f) [VI (param_type f) z] = Some f.

Definition defined_from (n : nat) (F : table) : Prop :=
  forall fuel depth, (n <= depth)%nat -> forall f t d, In (f, t, d) F -> does (run I G ext all fuel depth) f t d.

Fixpoint entries (fs : list fundef) (ds : list fn) : table :=
  match fs, ds with f :: fs', d :: ds' => (f_name f, param_type f, d) :: entries fs' ds' | _, _ => [] end.

Theorem compiles_sound : forall fs ds F n, Forall found fs -> compiles F fs ds -> defined_from n F ->
  defined_from (n + List.length fs) (entries fs ds).
Proof.
  induction fs as [|f fs IH]; intros [|d ds] F n Hf Hc HF; cbn [compiles entries] in *; try contradiction.
  - intros fuel depth Hd g t x [].
  - destruct Hc as [C Hc]. inversion Hf as [|? ? Hff Hfs]; subst.
    assert (HF' : defined_from (S n) ((f_name f, param_type f, d) :: F)).
    { intros fuel depth Hd g t x [E|Hin]; [|apply HF; [lia | exact Hin]].
      injection E as <- <- <-. destruct depth as [|depth]; [lia|]. intros c Hc0. cbn [run].
      destruct (Hff (norm I (param_type f) c)) as [-> ->].
      apply (compile_sound _ G F); [|exact C | exact Hc0].
      intros g t x Hin. apply HF; [lia | exact Hin]. }
    intros fuel depth Hd g t x [E|Hin].
    + apply HF'; [cbn [List.length] in Hd; lia | left; exact E].
    + apply (IH _ _ _ Hfs Hc HF'); [cbn [List.length] in Hd; lia | exact Hin].
Qed.
End Programs.
End Sound.
