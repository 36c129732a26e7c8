(** The text of FindANSAK.cmake, up to where the string library is. *)
From Coq Require Import ZArith List Bool String Ascii Lia.
From Verif Require Import Gen.TextScripts Model.Make Model.Find Model.Cmake Model.FindText.
From Verif Require Import Proof.InstallFacts Proof.CmakePaths Proof.FindBlocks.
Import ListNotations.
Open Scope string_scope.
Open Scope list_scope.

Arguments truth : simpl never.
Arguments path_of : simpl never.
Arguments spell : simpl never.
Arguments directory_of : simpl never.
Arguments name_of : simpl never.
Arguments first_file : simpl never.
Arguments begins : simpl never.
Arguments run_with : simpl never.
Arguments find_win_lib : simpl never.
Arguments Cmake.run : simpl never.

Definition seg0 : block := Eval vm_compute in take 10 the_block.
Definition rest1 : block := Eval vm_compute in skip 10 the_block.
Definition seg1 : block := Eval vm_compute in take 1 rest1.
Definition rest2 : block := Eval vm_compute in skip 1 rest1.
Definition seg2 : block := Eval vm_compute in take 5 rest2.
Definition rest3 : block := Eval vm_compute in skip 5 rest2.

(** The bodies of the functions *)
Definition body_of (n : string) (l : list (string * (list string * block))) : list string * block :=
  match find_fun n l with Some f => f | None => ([], Nil) end.

Fixpoint defined (b : block) : list (string * (list string * block)) :=
  match b with
  | Fun n ps body rest => defined rest ++ [(n, (ps, body))]
  | Do _ _ rest | If _ _ _ rest => defined rest
  | Nil => []
  end.

Definition the_funs := Eval vm_compute in defined seg0.

Definition tables (nogen : string) (vs : string -> option string) : string -> option string :=
  upd (upd (upd (upd (upd vs "_no_generator_libs" nogen) "win32Dirs" "Win32;x86;i386;X86")
    "win64Dirs" "x64;Win64;x86-64;x86_64;X64;X86_64;X86-64;amd64") "armDirs" "ARM;Arm;arm") "arm64Dirs" "ARM64;Arm64;arm64".

Section Text.
Variables (s : settings) (d : disk) (vs : string -> option string) (env : string -> string).
Hypothesis SF : stands_for s vs env.

Notation bef := (fun k => earlier s (find_kind k)).
Notation aft := (fun k => later s (find_kind k)).
Variable call : block -> state -> outcome.
Notation rw := (run_with env bef aft d call).

Lemma unset : forall x, existsb (String.eqb x) inputs = false -> vs x = None.
Proof.
  intros x E. destruct (vs x) as [v|] eqn:V; [|reflexivity]. exfalso.
  assert (I : In x inputs) by (apply (sf_only s vs env SF); congruence).
  assert (existsb (String.eqb x) inputs = true) by (apply existsb_exists; exists x; split; [exact I|apply String.eqb_refl]). congruence.
Qed.

Lemma s_nil : forall st, rw Nil st = Went st. Proof. reflexivity. Qed.
Lemma s_do : forall n args rest st, rw (Do n args rest) st =
  match command env bef aft d call n args st with Went st' => rw rest st' | other => other end.
Proof. reflexivity. Qed.
Lemma s_if : forall c a b rest st, rw (If c a b rest) st =
  match condition env st c with
  | Some t => match rw (if t then a else b) st with Went st' => rw rest st' | other => other end
  | None => Stuck
  end.
Proof. intros. cbv [run_with]. fold (run_with env bef aft d call). destruct (condition env st c) as [[]|]; reflexivity. Qed.
Lemma s_fun : forall n ps body rest st, rw (Fun n ps body rest) st = rw rest (with_fun n (ps, body) st).
Proof. reflexivity. Qed.

Lemma do_went : forall n args rest st st', command env bef aft d call n args st = Went st' -> rw (Do n args rest) st = rw rest st'.
Proof. intros n args rest st st' E. rewrite s_do. now rewrite E. Qed.
Lemma if_which : forall c t a b rest st, condition env st c = Some t -> rw (If c a b rest) st =
  match rw (if t then a else b) st with Went st' => rw rest st' | other => other end.
Proof. intros c t a b rest st E. rewrite s_if. now rewrite E. Qed.

Ltac clean := repeat match goal with |- context [vs ?x] => rewrite (unset x eq_refl) end.
Ltac step := first [rewrite s_nil | rewrite s_do | rewrite s_if | rewrite s_fun]; cbn.

Lemma opt_id : forall o : option string, match o with Some v => Some v | None => None end = o.
Proof. now intros []. Qed.

Lemma if_same : forall (A : Type) (b : bool) (x : A), (if b then x else x) = x.
Proof. now intros A []. Qed.

Ltac look := cbn; unfold value; cbn; clean; rewrite ?opt_id; cbn.

Lemma platform_side : forall w st, fst (value st "CMAKE_GENERATOR_PLATFORM", w) = vs "CMAKE_GENERATOR_PLATFORM" -> In w ["ARM"; "ARM64"; "Win32"; "x64"] ->
  String.eqb (match value st "CMAKE_GENERATOR_PLATFORM" with Some v => v | None => "CMAKE_GENERATOR_PLATFORM" end) w = String.eqb (platform s) w.
Proof.
  intros w st E I. cbn in E. rewrite E. rewrite <- (sf_platform s vs env SF).
  destruct (vs "CMAKE_GENERATOR_PLATFORM"); [reflexivity|]. cbn in I. now repeat destruct I as [<-|I].
Qed.

(** * find_win_lib *)

Definition win_body : block := Eval vm_compute in snd (body_of "find_win_lib" the_funs).

Definition called (st : state) (v : string) : state :=
  with_var "ARGN" v (with_var "doc_string" "ANSAK string library" (with_var "signal_library" "ansakString.lib" (with_var "find_var" "_locator" (enter st)))).

Lemma first_same : forall dirs name, first_file d dirs name = first d dirs name.
Proof. induction dirs as [|x dirs IH]; intro name; [reflexivity|]. cbn. unfold first_file. fold (first_file d). now rewrite IH. Qed.

Definition holds (o : option path) : option string := option_map spell o.

(** [st'] is [st] but for what has been found *)
Record next (n : string) (var : option path) (st st' : state) : Prop := {
  nx_up : up st' = up st; nx_funs : funs st' = funs st; nx_incs : incs st' = incs st; nx_failed : failed st' = failed st;
  nx_cache : cache st' n = holds var; nx_others : forall x, x <> n -> cache st' x = cache st x }.

Lemma find_required : forall st var name hs deflt,
  cache st "_locator" = holds var ->
  match required s d deflt hs name var with
  | None => (if already "_locator" st then Went st
    else match first_file d (if deflt then earlier s Find.Library ++ hs ++ later s Find.Library else hs) name with
         | Some p => Went (with_cache "_locator" (spell p) st)
         | None => Cmake.Fatal
         end) = Cmake.Fatal
  | Some var' => exists st', (if already "_locator" st then Went st
    else match first_file d (if deflt then earlier s Find.Library ++ hs ++ later s Find.Library else hs) name with
         | Some p => Went (with_cache "_locator" (spell p) st)
         | None => Cmake.Fatal
         end) = Went st' /\ vars st' = vars st /\ next "_locator" var' st st'
  end.
Proof.
  intros st var name hs deflt C. unfold required, already. rewrite C. destruct var as [p|]; cbn.
  - rewrite spell_word by reflexivity. cbn. exists st. do 2 (split; [reflexivity|]). now constructor.
  - rewrite first_same. unfold search. destruct (first d _ name) as [p|]; [|reflexivity].
    eexists. do 2 (split; [reflexivity|]). constructor; try reflexivity. intros x X. cbn. unfold upd.
    destruct (String.eqb_spec "_locator" x); [congruence|reflexivity].
Qed.

Definition quote (ps : list piece) : arg := {| quoted := true; pieces := ps |}.
Definition ref (x : string) : arg := {| quoted := false; pieces := [Var x] |}.

Lemma platform_condition : forall st w, value st "CMAKE_GENERATOR_PLATFORM" = vs "CMAKE_GENERATOR_PLATFORM" ->
  In w ["ARM"; "ARM64"; "Win32"; "x64"] ->
  condition env st [word "CMAKE_GENERATOR_PLATFORM"; word "STREQUAL"; quote [Lit w]] = Some (String.eqb (platform s) w).
Proof.
  intros st w E I. rewrite <- (platform_side w st E I). cbn. now rewrite andb_true_r, orb_false_r.
Qed.

Definition lib_args (hs : list string) : list arg :=
  [ref "find_var"; ref "signal_library"; word "HINTS"] ++ map (fun h => quote [Var "cand"; Lit h]) hs
  ++ [word "DOC"; quote [Var "doc_string"]; word "REQUIRED"; word "NO_DEFAULT_PATH"].

Definition on_platform (w : string) (hs : list string) (other : block) : block :=
  If [word "CMAKE_GENERATOR_PLATFORM"; word "STREQUAL"; quote [Lit w]] (Do "find_library" (lib_args (map (String "/") hs)) Nil) other Nil.

Definition platforms : block :=
  on_platform "ARM" ["lib/ARM/Debug"] (on_platform "ARM64" ["lib/ARM64/Debug"]
    (on_platform "Win32" ["lib/Win32/Debug"; "lib/x86/Debug"; "lib/i386/Debug"]
      (on_platform "x64" ["lib/x64/Debug"; "lib/Win64/Debug"; "lib/x86_64/Debug"; "lib/x86-64/Debug"; "lib/amd64/Debug"] Nil))).

Fixpoint followed (b rest : block) : block :=
  match b with
  | Nil => rest
  | Do n a b => Do n a (followed b rest)
  | If c x y b => If c x y (followed b rest)
  | Fun n ps x b => Fun n ps x (followed b rest)
  end.

Lemma win_body_is : win_body = If [word "ARGN"]
  (Do "list" [word "GET"; word "ARGN"; word "0"; word "cand"]
    (followed platforms (Do "find_library" (lib_args (map (String "/") ["lib"])) Nil))) Nil Nil.
Proof. reflexivity. Qed.

Lemma run_followed : forall b rest st, run_with env bef aft d call (followed b rest) st =
  match run_with env bef aft d call b st with Went st' => run_with env bef aft d call rest st' | other => other end.
Proof.
  induction b as [|n a b IH|c x _ y _ b IH|n ps x _ b IH]; intros rest st; cbn [followed]; [reflexivity| | |].
  - rewrite !s_do. destruct (command _ _ _ _ _ _ _ _); auto.
  - rewrite !s_if. destruct (condition _ _ _); [|reflexivity]. destruct (run_with env bef aft d call _ st); auto.
  - rewrite !s_fun. apply IH.
Qed.

Lemma requests_hints : forall l rest r,
  requests Hints (map (pair true) l ++ rest) r =
  requests Hints rest {| hints := hints r ++ l; needed := needed r; default := default r |}.
Proof.
  induction l as [|x l IH]; intros rest r; cbn.
  - rewrite app_nil_r. now destruct r.
  - rewrite IH. cbn. now rewrite <- app_assoc.
Qed.

Lemma expand_app : forall st a b, expand_args env st (a ++ b) = expand_args env st a ++ expand_args env st b.
Proof. induction a as [|x a IH]; intro b; cbn; [reflexivity|]. now rewrite IH, app_assoc. Qed.

Lemma lib_command : forall st v c var hs,
  path_of v = c -> cache st "_locator" = holds var -> funs st = the_funs ->
  value st "find_var" = Some "_locator" -> value st "signal_library" = Some "ansakString.lib" -> value st "cand" = Some v ->
  let ps := map (fun h => c ++ path_of h) hs in
  match required s d false ps "ansakString.lib" var with
  | None => command env bef aft d call "find_library" (lib_args (map (String "/") hs)) st = Cmake.Fatal
  | Some var' => exists st', command env bef aft d call "find_library" (lib_args (map (String "/") hs)) st = Went st' /\ vars st' = vars st /\ next "_locator" var' st st'
  end.
Proof.
  intros st v c var hs M C F X Y Z ps. pose proof (find_required st var "ansakString.lib" ps false C) as R. cbv iota in R.
  assert (E : command env bef aft d call "find_library" (lib_args (map (String "/") hs)) st =
    if already "_locator" st then Went st
    else match first_file d ps "ansakString.lib" with
         | Some p => Went (with_cache "_locator" (spell p) st)
         | None => Cmake.Fatal
         end).
  { unfold command. rewrite F. cbn [String.eqb Ascii.eqb Bool.eqb the_funs find_fun].
    unfold lib_args. rewrite expand_app, expand_app. cbn -[value]. rewrite X, Y. cbn -[value].
    assert (H : expand_args env st (map (fun h : string => quote [Var "cand"; Lit h]) (map (String "/") hs)) =
                map (pair true) (map (fun h => (v ++ String "/" h)%string) hs)).
    { clear -Z. induction hs as [|h hs IH]; [reflexivity|]. cbn -[value]. rewrite Z. cbn. now rewrite IH. }
    rewrite H. unfold do_find. cbn -[value first_file already requests].
    change (requests Nowhere ((false, "HINTS") :: ?l) ?r) with (requests Hints l r).
    rewrite requests_hints. cbn -[value first_file already]. rewrite map_map.
    assert (Q : map (fun x => path_of (v ++ String "/" x)%string) hs = ps).
    { unfold ps. apply map_ext. intro h. now rewrite path_of_app, M. }
    now rewrite Q. }
  rewrite E. exact R.
Qed.

Lemma next_trans : forall n var var' a b c, next n var a b -> next n var' b c -> next n var' a c.
Proof.
  intros n var var' a b c [U F I X C O] [U' F' I' X' C' O']. constructor; try congruence.
  intros x N. now rewrite O', O.
Qed.

Lemma value_kept : forall n var a b x, vars b = vars a -> next n var a b -> x <> n -> value b x = value a x.
Proof. intros n var a b x V N X. unfold value. rewrite V. now rewrite (nx_others _ _ _ _ N x X). Qed.

Ltac branch hs K st1 var N1 :=
  specialize (K hs st1 var eq_refl N1);
  match type of K with match required _ _ _ (map ?f hs) _ _ with _ => _ end =>
    let l := eval cbn in (map f hs) in change (map f hs) with l in K
  end;
  repeat match type of K with context [path_of ?w] => let x := eval vm_compute in (path_of w) in change (path_of w) with x in K end;
  cbn [map] in K |- *; rewrite s_do; destruct (required _ _ _ _ _ _); [|now rewrite K];
  destruct K as (st' & K & R); exists st'; rewrite K; now rewrite !s_nil.

Lemma win_call : forall st c v var,
  may_hold v c -> value st "CMAKE_GENERATOR_PLATFORM" = vs "CMAKE_GENERATOR_PLATFORM" ->
  funs st = the_funs -> cache st "_locator" = holds var -> 
  match find_win_lib s d "ansakString.lib" c var with
  | None => rw win_body (called st v) = Cmake.Fatal
  | Some var' => exists st', rw win_body (called st v) = Went st' /\ next "_locator" var' (called st v) st'
  end.
Proof.
  intros st c v var M P F C. rewrite win_body_is, s_if.
  replace (condition env (called st v) [word "ARGN"]) with (Some (truth v))
    by (cbn; now rewrite andb_true_r, orb_false_r).
  destruct c as [c|]; cbn in M.
  - destruct M as (M & T & S). rewrite T. rewrite s_do.
    set (st1 := with_var "cand" v (called st v)).
    assert (N : command env bef aft d call "list" [word "GET"; word "ARGN"; word "0"; word "cand"] (called st v) = Went st1).
    { unfold command. change (funs (called st v)) with (funs st). rewrite F. cbn.
      replace (match v with "" => [] | String _ _ => split_at ";" "" v end) with [v]; [reflexivity|].
      destruct v; [discriminate T|now rewrite S]. }
    rewrite N. clear N.
    assert (P1 : value st1 "CMAKE_GENERATOR_PLATFORM" = vs "CMAKE_GENERATOR_PLATFORM") by exact P.
    unfold find_win_lib.
    assert (K : forall hs st2 var2, vars st2 = vars st1 -> next "_locator" var2 st1 st2 ->
      match required s d false (map (fun h => c ++ path_of h) hs) "ansakString.lib" var2 with
      | None => command env bef aft d call "find_library" (lib_args (map (String "/") hs)) st2 = Cmake.Fatal
      | Some var' => exists st', command env bef aft d call "find_library" (lib_args (map (String "/") hs)) st2 = Went st' /\ vars st' = vars st1 /\ next "_locator" var' st1 st'
      end).
    { intros hs st2 var2 V2 N2.
      pose proof (lib_command st2 v c var2 hs M (nx_cache _ _ _ _ N2)) as L.
      rewrite !(value_kept _ _ _ _ _ V2 N2) in L by discriminate.
      specialize (L (eq_trans (nx_funs _ _ _ _ N2) F) eq_refl eq_refl eq_refl). cbv zeta in L.
      destruct (required _ _ _ _ _ _); [|exact L]. destruct L as (st' & L & V' & N'). exists st'.
      split; [exact L|]. split; [congruence|]. eapply next_trans; eassumption. }
    assert (N1 : next "_locator" var st1 st1) by now constructor.
    rewrite run_followed.
    assert (H : match match platform_hints s c with
                      | Some hints => required s d false hints "ansakString.lib" var
                      | None => Some var
                      end with
                | None => rw platforms st1 = Cmake.Fatal
                | Some var' => exists st', rw platforms st1 = Went st' /\ vars st' = vars st1 /\ next "_locator" var' st1 st'
                end).
    { unfold platforms, on_platform, platform_hints.
      rewrite s_if, (platform_condition st1 "ARM" P1) by (cbn; tauto). destruct (platform s =? "ARM") eqn:E1; cbv iota.
      { branch ["lib/ARM/Debug"] K st1 var N1. }
      rewrite s_if, (platform_condition st1 "ARM64" P1) by (cbn; tauto). destruct (platform s =? "ARM64") eqn:E2; cbv iota.
      { branch ["lib/ARM64/Debug"] K st1 var N1. }
      rewrite s_if, (platform_condition st1 "Win32" P1) by (cbn; tauto). destruct (platform s =? "Win32") eqn:E3; cbv iota.
      { branch ["lib/Win32/Debug"; "lib/x86/Debug"; "lib/i386/Debug"] K st1 var N1. }
      rewrite s_if, (platform_condition st1 "x64" P1) by (cbn; tauto). destruct (platform s =? "x64") eqn:E4; cbv iota.
      { branch ["lib/x64/Debug"; "lib/Win64/Debug"; "lib/x86_64/Debug"; "lib/x86-64/Debug"; "lib/amd64/Debug"] K st1 var N1. }
      rewrite !s_nil. exists st1. now repeat split. }
    destruct (match platform_hints s c with Some _ => _ | None => _ end) as [var2|]; [|now rewrite H].
    destruct H as (st2 & H & V2 & N2). rewrite H.
    specialize (K ["lib"] st2 var2 V2 N2). change (map (fun h => c ++ path_of h) ["lib"]) with [c ++ ["lib"]] in K.
    rewrite s_do. destruct (required s d false [c ++ ["lib"]] _ var2) as [var3|]; [|now rewrite K].
    destruct K as (st3 & K & V3 & N3). exists st3. rewrite K. rewrite !s_nil. split; [reflexivity|].
    destruct N3 as [U3 F3 I3 X3 C3 O3]. now constructor.
  - rewrite M. rewrite !s_nil. eexists. split; [reflexivity|]. now constructor.
Qed.

Definition win_args (a : arg) : list arg := [word "_locator"; ref "_srch_string_lib"; quote [Lit "ANSAK string library"]; a].
End Text.

(** One command; the state stays a single record. *)
Ltac flat := unfold with_var, with_cache, with_up, with_incs, with_failure; cbn [vars cache funs up incs failed].
Ltac cmd tac :=
  match goal with |- context [run_with ?e1 ?b1 ?a1 ?d1 ?c1 (Do ?n ?args ?rest) ?st] =>
    let E := fresh "E" in
    eassert (E : command e1 b1 a1 d1 c1 n args st = Went _) by (cbn; tac; flat; reflexivity);
    rewrite (do_went _ d1 e1 c1 n args rest st _ E); clear E
  end.
Ltac cond b tac :=
  match goal with |- context [run_with ?e1 ?b1 ?a1 ?d1 ?c1 (If ?c ?x ?y ?rest) ?st] =>
    let E := fresh "E" in
    assert (E : condition e1 st c = Some b) by (cbn; tac; reflexivity);
    rewrite (if_which _ d1 e1 c1 c b x y rest st E); clear E; cbv iota
  end.
Ltac truths := repeat match goal with |- context [truth ?w] =>
  let r := eval vm_compute in (truth w) in match r with true => idtac | false => idtac end; change (truth w) with r end.

Ltac step := first [rewrite s_nil | rewrite s_do | rewrite s_if | rewrite s_fun]; cbn.

Section Whole.
Variables (s : settings) (d : disk) (vs : string -> option string) (env : string -> string).
Hypothesis SF : stands_for s vs env.
Hypothesis OR : ordinary s.

Notation bef := (fun k => earlier s (find_kind k)).
Notation aft := (fun k => later s (find_kind k)).
Notation call := (Cmake.run env bef aft d 0).
Notation rw := (run_with env bef aft d call).

Ltac clean := repeat match goal with |- context [vs ?x] => rewrite (unset s vs env SF x eq_refl) end.
Ltac look := cbn; unfold value; cbn; clean; rewrite ?opt_id; cbn.

Lemma win_command : forall st c v q a var,
  may_hold v c -> value st "CMAKE_GENERATOR_PLATFORM" = vs "CMAKE_GENERATOR_PLATFORM" ->
  funs st = the_funs -> cache st "_locator" = holds var ->
  expand_args env st [a] = [(q, v)] -> value st "_srch_string_lib" = Some "ansakString.lib" ->
  match find_win_lib s d "ansakString.lib" c var with
  | None => command env bef aft d call "find_win_lib" (win_args a) st = Cmake.Fatal
  | Some var' => exists st', command env bef aft d call "find_win_lib" (win_args a) st = Went st' /\ vars st' = vars st /\ next "_locator" var' st st'
  end.
Proof.
  intros st c v q a var M P F C A L.
  pose proof (win_call s d vs env SF (fun _ _ => Stuck) st c v var M P F C) as W.
  assert (E : command env bef aft d call "find_win_lib" (win_args a) st =
    match run_with env bef aft d (fun _ _ => Stuck) win_body (called st v) with
    | Went s' | Left s' => Went (leave st s')
    | other => other
    end).
  { unfold command. rewrite F. unfold win_args. change (?a :: ?b :: ?c :: ?l) with ([a; b; c] ++ l). rewrite expand_app, A.
    replace (expand_args env st [word "_locator"; ref "_srch_string_lib"; quote [Lit "ANSAK string library"]])
      with [(false, "_locator"); (false, "ansakString.lib"); (true, "ANSAK string library")].
    - reflexivity.
    - cbn -[value]. now rewrite L. }
  rewrite E. destruct (find_win_lib _ _ _ _ _) as [var'|]; [|now rewrite W].
  destruct W as (st' & W & N). rewrite W. eexists. split; [reflexivity|].
  destruct N as [U F' I X C' O]. cbn in U, F', I, X, C', O. split; [cbn; now rewrite U|]. constructor; cbn; auto.
Qed.

Definition srch (a b c : string) (f : string -> option string) := upd (upd (upd f "_srch_string_lib" a) "_srch_lib" b) "_srch_sqlite_lib" c.

Definition tabled := tables (if no_generator_libs s then "True" else "False") vs.

Definition searched : string -> option string :=
  srch (if unix s then "libansakString.a" else "ansakString.lib") (if unix s then "libansak.a" else "ansak.lib")
    (if unix s then "libansakSqlite.a" else "ansakSqlite.lib") tabled.

Record ready (loc : option path) (st : state) : Prop := {
  rd_vars : vars st = searched; rd_cache : cache st "_locator" = holds loc;
  rd_others : forall x, x <> "_locator" -> x <> "_loctaor" -> cache st x = None;
  rd_funs : funs st = the_funs; rd_up : up st = []; rd_incs : incs st = []; rd_failed : failed st = false }.

Definition tabled_state : state :=
  {| vars := tabled; cache := fun _ => None; funs := the_funs; up := []; incs := []; failed := false |}.

Lemma run_seg0 : rw seg0 (start vs) = Went tabled_state.
Proof.
  unfold seg0, tabled_state, tabled. rewrite <- (sf_no_generator_libs s vs env SF).
  step. rewrite if_same. step.
  step. rewrite if_same. step.
  step. look. rewrite orb_false_r, !andb_true_r.
  destruct (negb _ || truth _); do 10 step; reflexivity.
Qed.

Lemma seg1_is : seg1 = If [word "UNIX"; word "OR"; word "MINGW"; word "OR"; word "CYGWIN"]
  (snd (match seg1 with If _ a b _ => (b, a) | _ => (Nil, Nil) end)) 
  (fst (match seg1 with If _ a b _ => (b, a) | _ => (Nil, Nil) end)) Nil.
Proof. reflexivity. Qed.

Definition mid (var : option path) (st : state) : Prop :=
  vars st = upd tabled "_srch_string_lib" "ansakString.lib" /\ next "_locator" var (with_var "_srch_string_lib" "ansakString.lib" tabled_state) st.

Lemma win_step : forall st c v q a var rest, mid var st -> may_hold v c -> (forall st, mid var st -> expand_args env st [a] = [(q, v)]) ->
  match find_win_lib s d "ansakString.lib" c var with
  | None => rw (Do "find_win_lib" (win_args a) rest) st = Cmake.Fatal
  | Some var' => exists st', rw (Do "find_win_lib" (win_args a) rest) st = rw rest st' /\ mid var' st'
  end.
Proof.
  intros st c v q a var rest (V & N) M A. rewrite s_do.
  pose proof (win_command st c v q a var M) as W.
  assert (P : value st "CMAKE_GENERATOR_PLATFORM" = vs "CMAKE_GENERATOR_PLATFORM").
  { unfold value. rewrite V, (nx_others _ _ _ _ N) by discriminate. cbn. now destruct (vs _). }
  specialize (W P (nx_funs _ _ _ _ N) (nx_cache _ _ _ _ N) (A st (conj V N))).
  assert (L : value st "_srch_string_lib" = Some "ansakString.lib") by (unfold value; now rewrite V). specialize (W L).
  destruct (find_win_lib _ _ _ _ _) as [var'|]; [|now rewrite W]. destruct W as (st' & W & V' & N'). rewrite W.
  exists st'. split; [reflexivity|]. split; [congruence|]. eapply next_trans; eassumption.
Qed.

Lemma required_some : forall (df : bool) (hs : list path) n (var o : option path), required s d df hs n var = Some o -> exists p, o = Some p.
Proof. intros df hs n [p|] o E; cbn in E; [now exists p; inversion E|]. destruct (search _ _ _ _ _ _) as [p|]; [|discriminate]. exists p. now inversion E. Qed.

Lemma proper_word : forall w, In w ["lib"; "Debug"; "ARM"; "ARM64"; "Win32"; "x86"; "i386"; "x64"; "Win64"; "x86_64"; "x86-64"; "amd64";
  "libansakString.a"; "ansakString.lib"; "C:"; "ProgramData"; "include"; "ansak"; "string.hxx"] -> proper w.
Proof. intros w I. cbn in I. repeat destruct I as [<-|I]; try contradiction; repeat split; discriminate. Qed.

Lemma first_some : forall dirs n p, first d dirs n = Some p -> exists x, In x dirs /\ p = x ++ [n].
Proof.
  induction dirs as [|x dirs IH]; intros n p E; [discriminate|]. cbn in E. destruct (is_file d _).
  - exists x. split; [now left|now inversion E].
  - destruct (IH n p E) as (y & Y & Z). exists y. split; [now right|exact Z].
Qed.

Definition sited (n : string) (p : path) : Prop := exists x, p = x ++ [n] /\ Forall proper x /\ library_dir x.

Lemma below_lib : forall c l, (c ++ "lib" :: l) <> [] /\ ~ lone (c ++ "lib" :: l).
Proof.
  intros [|a [|b c]] l; cbn; (split; [discriminate|]); intro L; auto. destruct l; [discriminate L|exact L].
Qed.

Lemma lib_site : forall c, library_dir (c ++ ["lib"]).
Proof. intro c. split; [apply below_lib|]. rewrite last_last. discriminate. Qed.

Lemma arch_site : forall c a, library_dir (c ++ ["lib"; a; "Debug"]).
Proof.
  intros c a. split; [apply below_lib|]. intros _.
  replace (c ++ ["lib"; a; "Debug"]) with ((c ++ ["lib"; a]) ++ ["Debug"]) by now rewrite <- app_assoc. rewrite removelast_last.
  split; [apply below_lib|]. split; [apply below_lib|].
  replace (c ++ ["lib"; a]) with ((c ++ ["lib"]) ++ [a]) by now rewrite <- app_assoc. rewrite removelast_last. apply below_lib.
Qed.

Lemma truth_all : forall p, Forall proper p -> truth (spell p) = true.
Proof.
  intros p F. destruct p as [|c [|b p]]; [reflexivity| |].
  - destruct (drive c) eqn:D.
    + unfold spell. rewrite D. now apply (truth_slash c "").
    + apply truth_spell; [|exact F]. intro X. congruence.
  - apply truth_spell; [|exact F]. intros _. discriminate.
Qed.

Lemma required_sited : forall (df : bool) (hs : list path) n (var : option path), (forall p, var = Some p -> sited n p) ->
  (forall x, In x (if df then earlier s Find.Library ++ hs ++ later s Find.Library else hs) -> Forall proper x /\ library_dir x) ->
  forall p, required s d df hs n var = Some (Some p) -> sited n p.
Proof.
  intros df hs n [q|] V H p E; cbn in E; [apply V; now inversion E|].
  unfold search in E. destruct (first d _ n) as [q|] eqn:X; [|discriminate]. inversion E; subst. apply first_some in X as (x & I & ->).
  exists x. split; [reflexivity|]. now apply H.
Qed.

Lemma win_sited : forall c var var' : option path, (forall c', c = Some c' -> Forall proper c') -> (forall p, var = Some p -> sited "ansakString.lib" p) ->
  find_win_lib s d "ansakString.lib" c var = Some var' -> forall p, var' = Some p -> sited "ansakString.lib" p.
Proof.
  intros [c|] var var' G V E p X; unfold find_win_lib in E; [|apply V; congruence]. specialize (G c eq_refl). subst var'.
  assert (W : forall l, (forall w, In w l -> In w ["lib"; "Debug"; "ARM"; "ARM64"; "Win32"; "x86"; "i386"; "x64"; "Win64"; "x86_64"; "x86-64"; "amd64"]) -> Forall proper (c ++ l)).
  { intros l L. apply Forall_app. split; [exact G|]. apply Forall_forall. intros w I. apply proper_word. apply L in I. cbn in I |- *. tauto. }
  match type of E with match ?b with _ => _ end = _ => destruct b as [var2|] eqn:Y; [|discriminate] end.
  eapply required_sited; [| |exact E].
  - intros q ->. unfold platform_hints in Y.
    repeat match type of Y with context [if ?b then _ else _] => destruct b end; try (apply V; congruence); revert Y; apply required_sited; try exact V;
      intros x I; cbn in I; repeat destruct I as [<-|I]; try contradiction; (split; [apply W; cbn; intros; tauto|apply arch_site]).
  - intros x [<-|[]]. split; [apply W; cbn; tauto|apply lib_site].
Qed.

Lemma given_proper : forall c, In c [ansak_dir s; env_ansak_dir s; program_data s; env_program_data s; Some ["C:"; "ProgramData"]] ->
  forall c', c = Some c' -> Forall proper c'.
Proof.
  intros c I c' ->. assert (J : In (Some c') [ansak_dir s; env_ansak_dir s; program_data s; env_program_data s] \/ c' = ["C:"; "ProgramData"]).
  { cbn in I |- *. intuition congruence. }
  destruct J as [J| ->]; [now apply (or_given s OR)|]. repeat constructor; apply proper_word; cbn; tauto.
Qed.

Lemma try_sited : forall cands var var', (forall c, In c cands -> forall c', c = Some c' -> Forall proper c') ->
  (forall p, var = Some p -> sited "ansakString.lib" p) ->
  try_all s d cands var = Some var' -> forall p, var' = Some p -> sited "ansakString.lib" p.
Proof.
  induction cands as [|c cands IH]; intros var var' G V E; cbn in E; [inversion E; now subst|].
  destruct (find_win_lib _ _ _ _ _) as [var2|] eqn:F; [|discriminate]. eapply IH; [| |exact E].
  - intros x I. apply G. now right.
  - eapply win_sited; [|exact V|exact F]. apply G. now left.
Qed.

Lemma locator_sited : forall loc, (if unix s then unix_locator s d else windows_locator s d) = Some loc ->
  forall p, loc = Some p -> sited (if unix s then "libansakString.a" else "ansakString.lib") p.
Proof.
  intros loc E. destruct (unix s).
  - assert (H : forall hs, (forall x, In x hs -> Forall proper x /\ library_dir x) -> forall x, In x (earlier s Find.Library ++ hs ++ later s Find.Library) -> Forall proper x /\ library_dir x).
    { intros hs K x I. apply in_app_or in I as [I|I]; [|apply in_app_or in I as [I|I]; [now apply K|]];
      (split; [apply (or_dirs s OR Find.Library)|apply (or_libraries s OR)]; apply in_or_app; tauto). }
    unfold unix_locator in E. destruct (ansak_dir s) as [r|] eqn:A.
    + intros p ->. revert E. apply required_sited; [discriminate|]. apply H. intros x [<-|[]]. split; [|apply lib_site].
      apply Forall_app. split; [apply (or_given s OR); rewrite A; now left|]. repeat constructor; discriminate.
    + destruct (env_ansak_dir s) as [r|].
      * destruct (required _ _ _ _ _ _); [|discriminate]. inversion E. discriminate.
      * intros p ->. revert E. apply required_sited; [discriminate|]. now apply H.
  - unfold windows_locator in E. eapply try_sited; [apply given_proper| |exact E]. discriminate.
Qed.

Lemma windows_found : forall loc, windows_locator s d = Some loc -> exists p, loc = Some p.
Proof.
  intros loc E. unfold windows_locator in E. cbn [try_all] in E.
  do 4 match type of E with match ?b with _ => _ end = _ => destruct b as [?|]; [|discriminate] end.
  match type of E with match ?b with _ => _ end = _ => destruct b as [var|] eqn:F; [|discriminate] end. inversion E; subst.
  unfold find_win_lib in F. match type of F with match ?b with _ => _ end = _ => destruct b as [?|]; [|discriminate] end.
  eapply required_some. exact F.
Qed.

Definition windows_block : block := match seg1 with If _ _ b _ => b | _ => Nil end.

Definition no_platform : block :=
  If [word "NOT"; word "_locator"; word "AND"; word "NOT"; word "CMAKE_GENERATOR_PLATFORM"]
    (Do "message" [word "SEND_ERROR"; quote [Var "_srch_string_lib"; Lit " was not found with no platform specified. Should you have set the platform? -A ..."]] Nil) Nil
    (Do "set" [word "_srch_lib"; word "ansak.lib"] (Do "set" [word "_srch_sqlite_lib"; word "ansakSqlite.lib"] Nil)).

Lemma windows_block_is : windows_block =
  Do "set" [word "_srch_string_lib"; word "ansakString.lib"]
    (Do "find_win_lib" (win_args (quote [Var "ANSAK_DIR"]))
    (Do "find_win_lib" (win_args (quote [Env "ANSAK_DIR"]))
    (Do "find_win_lib" (win_args (quote [Var "PROGRAM_DATA"]))
    (Do "find_win_lib" (win_args (quote [Env "PROGRAM_DATA"]))
    (Do "find_win_lib" (win_args (word "C:/ProgramData")) no_platform))))).
Proof. reflexivity. Qed.

Lemma mid_value : forall var st x, mid var st -> x <> "_locator" -> value st x = upd tabled "_srch_string_lib" "ansakString.lib" x.
Proof.
  intros var st x (V & N) X. unfold value. rewrite V, (nx_others _ _ _ _ N x X). now destruct (upd _ _ _ x).
Qed.

Lemma mid_var : forall var st x, mid var st -> existsb (String.eqb x) ["ANSAK_DIR"; "PROGRAM_DATA"; "CMAKE_GENERATOR_PLATFORM"] = true ->
  value st x = vs x.
Proof.
  intros var st x M E. cbn in E. destruct (String.eqb_spec x "ANSAK_DIR") as [->|]; [now rewrite (mid_value var st _ M) by discriminate|].
  destruct (String.eqb_spec x "PROGRAM_DATA") as [->|]; [now rewrite (mid_value var st _ M) by discriminate|].
  destruct (String.eqb_spec x "CMAKE_GENERATOR_PLATFORM") as [->|]; [now rewrite (mid_value var st _ M) by discriminate|]. discriminate.
Qed.

Lemma run_windows : unix s = false -> match windows_locator s d with
  | None => rw windows_block tabled_state = Cmake.Fatal
  | Some loc => exists st, rw windows_block tabled_state = Went st /\ ready loc st
  end.
Proof.
  intro UX. pose proof (locator_sited) as LS. rewrite UX in LS. pose proof windows_found as WF.
  unfold windows_locator in *. cbn [try_all] in *. rewrite windows_block_is, s_do.
  assert (E : command env bef aft d call "set" [word "_srch_string_lib"; word "ansakString.lib"] tabled_state =
    Went (with_var "_srch_string_lib" "ansakString.lib" tabled_state)) by reflexivity. rewrite E. clear E.
  set (st0 := with_var "_srch_string_lib" "ansakString.lib" tabled_state).
  assert (M0 : mid None st0) by (split; [reflexivity|now constructor]). clearbody st0.
  pose proof (fun rest => win_step st0 (ansak_dir s) (text (vs "ANSAK_DIR")) true (quote [Var "ANSAK_DIR"]) None rest M0 (sf_ansak_dir s vs env SF)) as W1.
  assert (G1 : forall var st, mid var st -> expand_args env st [quote [Var "ANSAK_DIR"]] = [(true, text (vs "ANSAK_DIR"))])
    by (intros var st M; cbn -[value]; now rewrite (mid_var var st _ M) by reflexivity).
  match goal with |- context [Do "find_win_lib" (win_args (quote [Var "ANSAK_DIR"])) ?rest] => specialize (W1 rest (G1 None)) end.
  destruct (find_win_lib s d "ansakString.lib" (ansak_dir s) None) as [var1|]; [|exact W1]. destruct W1 as (st1 & W1 & M1). rewrite W1. clear W1 M0.
  assert (B : may_hold (env "ANSAK_DIR") (env_ansak_dir s)).
  { pose proof (sf_env_ansak_dir s vs env SF) as B. destruct (env_ansak_dir s); [exact B|now cbn; rewrite B]. }
  pose proof (fun rest => win_step st1 (env_ansak_dir s) (env "ANSAK_DIR") true (quote [Env "ANSAK_DIR"]) var1 rest M1 B (fun _ _ => eq_refl)) as W2.
  match goal with |- context [Do "find_win_lib" (win_args (quote [Env "ANSAK_DIR"])) ?rest] => specialize (W2 rest) end.
  destruct (find_win_lib s d "ansakString.lib" (env_ansak_dir s) var1) as [var2|]; [|exact W2]. destruct W2 as (st2 & W2 & M2). rewrite W2. clear W2 M1.
  pose proof (fun rest => win_step st2 (program_data s) (text (vs "PROGRAM_DATA")) true (quote [Var "PROGRAM_DATA"]) var2 rest M2 (sf_program_data s vs env SF)) as W3.
  assert (G3 : forall var st, mid var st -> expand_args env st [quote [Var "PROGRAM_DATA"]] = [(true, text (vs "PROGRAM_DATA"))])
    by (intros var st M; cbn -[value]; now rewrite (mid_var var st _ M) by reflexivity).
  match goal with |- context [Do "find_win_lib" (win_args (quote [Var "PROGRAM_DATA"])) ?rest] => specialize (W3 rest (G3 var2)) end.
  destruct (find_win_lib s d "ansakString.lib" (program_data s) var2) as [var3|]; [|exact W3]. destruct W3 as (st3 & W3 & M3). rewrite W3. clear W3 M2.
  pose proof (fun rest => win_step st3 (env_program_data s) (env "PROGRAM_DATA") true (quote [Env "PROGRAM_DATA"]) var3 rest M3 (sf_env_program_data s vs env SF) (fun _ _ => eq_refl)) as W4.
  match goal with |- context [Do "find_win_lib" (win_args (quote [Env "PROGRAM_DATA"])) ?rest] => specialize (W4 rest) end.
  destruct (find_win_lib s d "ansakString.lib" (env_program_data s) var3) as [var4|]; [|exact W4]. destruct W4 as (st4 & W4 & M4). rewrite W4. clear W4 M3.
  assert (CP : may_hold "C:/ProgramData" (Some ["C:"; "ProgramData"])) by (repeat split).
  pose proof (win_step st4 (Some ["C:"; "ProgramData"]) "C:/ProgramData" false (word "C:/ProgramData") var4 no_platform M4 CP (fun _ _ => eq_refl)) as W5.
  destruct (find_win_lib s d "ansakString.lib" (Some ["C:"; "ProgramData"]) var4) as [var5|]; [|exact W5]. destruct W5 as (st5 & W5 & M5). rewrite W5. clear W5 M4.
  destruct (WF var5 eq_refl) as (p & ->). destruct (LS (Some p) eq_refl p eq_refl) as (x & X & P & _).
  assert (T : truth (spell p) = true).
  { apply truth_all. rewrite X. apply Forall_app. split; [exact P|]. constructor; [|constructor]. apply proper_word. cbn; tauto. }
  unfold no_platform. rewrite s_if.
  assert (C : condition env st5 [word "NOT"; word "_locator"; word "AND"; word "NOT"; word "CMAKE_GENERATOR_PLATFORM"] = Some false).
  { destruct M5 as (V & N). cbn -[value]. unfold value at 1. rewrite V, (nx_cache _ _ _ _ N). cbn -[value]. clean. cbn -[value]. now rewrite T. }
  rewrite C, s_nil. destruct M5 as (V & [U F I X' C' O]).
  rewrite s_do. unfold command. rewrite F. cbn. rewrite s_do. unfold command. cbn. rewrite F. cbn. rewrite s_nil.
  eexists. split; [reflexivity|]. constructor; cbn; auto.
  - unfold searched. rewrite UX, V. reflexivity.
  - intros y Y1 _. now rewrite O.
Qed.

Lemma run_seg1 : match (if unix s then unix_locator s d else windows_locator s d) with
  | None => rw seg1 tabled_state = Cmake.Fatal
  | Some loc => exists st, rw seg1 tabled_state = Went st /\ ready loc st
  end.
Proof.
  rewrite seg1_is, s_if.
  assert (U : condition env tabled_state [word "UNIX"; word "OR"; word "MINGW"; word "OR"; word "CYGWIN"] = Some (unix s)).
  { rewrite <- (sf_unix s vs env SF). unfold tabled_state, tabled. look.
    destruct (truth (text (vs "UNIX"))), (truth (text (vs "MINGW"))), (truth (text (vs "CYGWIN"))); reflexivity. }
  rewrite U. unfold seg1. cbn [fst snd]. destruct (unix s) eqn:UX.
  - step. step. look. rewrite ?andb_true_r, ?orb_false_r. unfold unix_locator. pose proof (sf_ansak_dir s vs env SF) as A.
    destruct (ansak_dir s) as [r|]; cbn in A.
    + destruct A as (A & T & _). rewrite T. step. look. rewrite (path_of_app _ "lib"), A. change (first_file d) with (first d).
      unfold required, search. cbn [List.app]. change (path_of "lib") with ["lib"].
      destruct (first d _ _) as [p|]; [|reflexivity]. do 4 step. eexists. split; [reflexivity|].
      constructor; try reflexivity; cbn; [unfold searched; now rewrite UX|]. intros x X Y. unfold upd. destruct (String.eqb_spec "_locator" x); congruence.
    + rewrite A. step. rewrite ?andb_true_r, ?orb_false_r. pose proof (sf_env_ansak_dir s vs env SF) as B.
      destruct (env_ansak_dir s) as [r|].
      * destruct B as (B & T & _). destruct (String.eqb_spec (env "ANSAK_DIR") "") as [X|X]; [rewrite X in T; discriminate|]. cbn [negb].
        step. rewrite (path_of_app _ "lib"), B. change (first_file d) with (first d).
        unfold required, search. cbn [List.app]. change (path_of "lib") with ["lib"].
        destruct (first d _ _) as [p|]; [|reflexivity]. do 5 step. eexists. split; [reflexivity|].
        constructor; try reflexivity; cbn; [unfold searched; now rewrite UX|]. intros x X' Y. unfold upd. destruct (String.eqb_spec "_loctaor" x); congruence.
      * rewrite B. cbn [String.eqb negb]. step. change (first_file d) with (first d).
        unfold required, search. cbn [List.app]. 
        destruct (first d _ _) as [p|]; [|reflexivity]. do 5 step. eexists. split; [reflexivity|].
        constructor; try reflexivity; cbn; [unfold searched; now rewrite UX|]. intros x X' Y. unfold upd. destruct (String.eqb_spec "_locator" x); congruence.
  - pose proof (run_windows UX) as W. unfold windows_block, seg1 in W.
    destruct (windows_locator s d) as [loc|]; [|now rewrite W]. destruct W as (st & W & R). exists st. rewrite W. now rewrite s_nil.
Qed.
End Whole.
