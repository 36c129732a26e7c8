(** The text of FindANSAK.cmake: where the library is, and what that says about
    the rest. *)
From Coq Require Import ZArith List Bool String Ascii Lia.
From Verif Require Import Gen.TextScripts Model.Make Model.Find Model.Cmake Model.FindText.
From Verif Require Import Proof.InstallFacts Proof.CmakePaths Proof.FindBlocks Proof.FindSearch.
Import ListNotations.
Open Scope string_scope.
Open Scope list_scope.

Arguments truth : simpl never.
Arguments path_of : simpl never.
Arguments spell : simpl never.
Arguments directory_of : simpl never.
Arguments name_of : simpl never.
Arguments first_file : simpl never.
Arguments begins : simpl never.
Arguments run_with : simpl never.
Arguments find_win_lib : simpl never.
Arguments Cmake.run : simpl never.

Arguments position : simpl never.
Arguments visual_studio : simpl never.
Arguments starts : simpl never.
Arguments to_number : simpl never.
Arguments Z.leb : simpl never.

Lemma directory_not_lone : forall x, ~ lone x -> Forall proper x -> directory_of (spell x) = spell (removelast x).
Proof.
  intros x L F. destruct x as [|c x]; [reflexivity|]. apply directory_spell; [|exact F].
  cbn. intros D N. subst x. now apply L.
Qed.

Lemma name_not_lone : forall x, ~ lone x -> Forall proper x -> name_of (spell x) = last x "".
Proof.
  intros x L F. destruct x as [|c x]; [reflexivity|]. apply name_spell; [|exact F].
  cbn. intros D N. subst x. now apply L.
Qed.

Lemma proper_up : forall x, Forall proper x -> Forall proper (removelast x).
Proof.
  intros x F. destruct x as [|c x] using rev_ind; [exact F|]. rewrite removelast_last. now apply Forall_app in F.
Qed.

Lemma proper_last : forall x, Forall proper x -> x <> [] -> proper (last x "").
Proof.
  intros x F N. destruct x as [|c x] using rev_ind; [contradiction|]. rewrite last_last. apply Forall_app in F as (_ & F). now inversion F.
Qed.

Lemma begins_starts : forall a t, begins a t = starts a t.
Proof. reflexivity. Qed.

Section Place.
Variables (s : settings) (d : disk) (vs : string -> option string) (env : string -> string).
Hypothesis SF : stands_for s vs env.
Hypothesis OR : ordinary s.

Notation bef := (fun k => earlier s (find_kind k)).
Notation aft := (fun k => later s (find_kind k)).
Notation call := (Cmake.run env bef aft d 0).
Notation rw := (run_with env bef aft d call).

Ltac step := first [rewrite s_nil | rewrite s_do | rewrite s_if | rewrite s_fun]; cbn.
Ltac clean := repeat match goal with |- context [vs ?x] => rewrite (unset s vs env SF x eq_refl) end.
Ltac look := cbn; unfold value; cbn; clean; rewrite ?opt_id; cbn.

(** Names used from here on *)
Definition ahead : list string :=
  ["ANSAK_STRING_HEADER"; "ANSAK_LIB_HEADER"; "ANSAK_SQLITE_HEADER"; "ANSAK_FOUND"; "ANSAK_INCLUDE"; "ANSAK_LIB_FOUND"; "ANSAK_LIB";
   "ANSAK_SQLITE_FOUND"; "ANSAK_SQLITE_LIB"; "_platform_ansak_lib"; "_platform_ansak_sqlite_lib"].

Definition or_root (o : option path) : path := match o with Some p => p | None => [] end.

Record placed (loc : option path) (st : state) : Prop := {
  pl_ahead : forall x, In x ahead -> vars st x = None /\ cache st x = None;
  pl_inputs : forall x, In x ["SQLite3_FOUND"; "ANSAK_ISOLATE"; "ANSAK_DEBUG"] -> value st x = vs x;
  pl_srch : value st "_srch_lib" = Some (if unix s then "libansak.a" else "ansak.lib");
  pl_srch_sqlite : value st "_srch_sqlite_lib" = Some (if unix s then "libansakSqlite.a" else "ansakSqlite.lib");
  pl_dir : path_of (text (value st "_locator_dir")) = directory (or_root loc);
  pl_root : path_of (text (value st "_ansak_root")) = snd (fst (locate s (or_root loc)));
  pl_root_proper : Forall proper (snd (fst (locate s (or_root loc))));
  pl_lib : value st "ANSAK_STRING_LIB" = Some (spell_lib (fst (fst (locate s (or_root loc)))));
  pl_split : truth (text (value st "_vs_match")) && truth (text (value st "_split_libs")) =
             match snd (locate s (or_root loc)) with Some _ => true | None => false end;
  pl_parent : match snd (locate s (or_root loc)) with
              | Some p => value st "_locator_parent_dir" = Some (spell p)
              | None => True
              end;
  pl_by_generator : value st "ANSAK_LIB_BY_GENERATOR" =
    if match snd (locate s (or_root loc)) with Some _ => negb (no_generator_libs s) | None => false end then Some "True" else None;
  pl_funs : funs st = the_funs; pl_up : up st = []; pl_incs : incs st = []; pl_failed : failed st = false }.

Definition base (ch : string -> option string) : state :=
  {| vars := searched s vs; cache := ch; funs := the_funs; up := []; incs := []; failed := false |}.

Lemma run_none : forall ch, ch "_locator" = None -> (forall x, x <> "_locator" -> x <> "_loctaor" -> ch x = None) ->
  exists st, rw seg2 (base ch) = Went st /\ placed None st.
Proof.
  intros ch C O. pose proof (O "ANSAK_STRING_LIB" ltac:(discriminate) ltac:(discriminate)) as O1. unfold seg2, base.
  cond false ltac:(look; rewrite C). rewrite s_nil.
  cmd ltac:(look; rewrite C; cbn; change (directory_of "") with ""). cmd idtac. cmd ltac:(change (name_of "") with "").
  cond true idtac. cmd idtac. cmd ltac:(change (directory_of "") with "").
  cond true idtac. rewrite s_nil.
  cmd ltac:(look; rewrite C; cbn; unfold store_cache; cbn; rewrite O1). cmd idtac. rewrite !s_nil.
  eexists. split; [reflexivity|]. constructor; try reflexivity.
  - intros x I. cbn in I. repeat destruct I as [<-|I]; try contradiction; cbn; clean; (split; [reflexivity|]); unfold upd; cbn; apply O; discriminate.
  - intros x I. cbn in I. repeat destruct I as [<-|I]; try contradiction; unfold value; cbn; rewrite O by discriminate; now destruct (vs _).
  - constructor.
  - look. reflexivity.
  - look. rewrite O by discriminate. reflexivity.
  - look. now rewrite O.
Qed.

(** * platform_matches_dirname *)

Lemma position_found : forall w l, In l [win32_dirs; win64_dirs; arm_dirs; arm64_dirs; []] ->
  exists z, to_number (position w l 0) = Some z /\ Z.leb 0 z = existsb (String.eqb w) l.
Proof.
  intros w l I. cbn in I. repeat destruct I as [<-|I]; try contradiction; cbn [win32_dirs win64_dirs arm_dirs arm64_dirs existsb]; cbv [position win32_dirs win64_dirs arm_dirs arm64_dirs];
    repeat match goal with |- context [?a =? w] => rewrite (String.eqb_sym a w); destruct (w =? a) end;
    (eexists; split; [vm_compute; reflexivity|reflexivity]).
Qed.

Lemma elements_one : forall w, w <> "" -> free ";" w = true -> elements w = [w].
Proof.
  intros w N F. unfold elements. rewrite split_free by exact F. cbn. destruct (String.eqb_spec w ""); [contradiction|reflexivity].
Qed.

Definition platform_args : list arg := [ref "_locator_parentdir_name"; word "itsMyPlatform"].

Definition ifs (b : bool) : string := if b then "True" else "False".

Lemma platform_call : forall V ch w, proper w -> V "_locator_parentdir_name" = Some w ->
  V "CMAKE_GENERATOR_PLATFORM" = vs "CMAKE_GENERATOR_PLATFORM" -> ch "CMAKE_GENERATOR_PLATFORM" = None ->
  V "win32Dirs" = Some "Win32;x86;i386;X86" -> V "win64Dirs" = Some "x64;Win64;x86-64;x86_64;X64;X86_64;X86-64;amd64" ->
  V "armDirs" = Some "ARM;Arm;arm" -> V "arm64Dirs" = Some "ARM64;Arm64;arm64" -> V "theList" = None -> ch "theList" = None ->
  V "0" = None -> ch "0" = None ->
  exists V', command env bef aft d call "platform_matches_dirname" platform_args
      {| vars := V; cache := ch; funs := the_funs; up := []; incs := []; failed := false |} =
    Went {| vars := V'; cache := ch; funs := the_funs; up := []; incs := []; failed := false |} /\
    V' "itsMyPlatform" = Some (ifs (platform_matches s w)) /\ (forall x, x <> "itsMyPlatform" -> V' x = V x).
Proof.
  intros V ch w (W1 & _ & W3 & _) N P CP L1 L2 L3 L4 TL CT Z0 C0. unfold command.
  cbn -[elements value]. unfold value at 1. cbn -[elements value]. rewrite N. cbn -[elements value].
  rewrite (elements_one w W1 W3). cbn -[value].
  match goal with |- context [Cmake.run ?e1 ?b1 ?a1 ?d1 0 ?b ?st] => change (Cmake.run e1 b1 a1 d1 0 b st) with (run_with e1 b1 a1 d1 (fun _ _ => Stuck) b st) end.
  unfold enter. flat.
  assert (PS : forall x, In x ["ARM"; "ARM64"; "Win32"; "x64"] ->
    String.eqb (match V "CMAKE_GENERATOR_PLATFORM" with Some v => v | None => "CMAKE_GENERATOR_PLATFORM" end) x = String.eqb (platform s) x).
  { intros x I. rewrite P. rewrite <- (sf_platform s vs env SF). destruct (vs "CMAKE_GENERATOR_PLATFORM"); [reflexivity|].
    cbn in I. now repeat destruct I as [<-|I]. }
  assert (PS' : forall x, In x ["ARM"; "ARM64"; "Win32"; "x64"] ->
    String.eqb (match match V "CMAKE_GENERATOR_PLATFORM" with Some v => Some v | None => ch "CMAKE_GENERATOR_PLATFORM" end with Some v => v | None => "CMAKE_GENERATOR_PLATFORM" end) x = String.eqb (platform s) x).
  { intros x I. rewrite CP, opt_id. now apply PS. }
  unfold platform_matches.
  assert (WE : (w =? "") = false) by now apply String.eqb_neq.
  Ltac tail w l W1 W3 TL CT Z0 C0 :=
    cmd ltac:(unfold value; cbn -[position]; rewrite (split_free ";" w "" W3); cbn -[position]; rewrite W1; cbn -[position]; unfold listed, value; cbn -[position]; rewrite ?TL, ?CT; cbn -[position];
              change (position w ?k 0) with (position w l 0));
    let z := fresh "z" in let Z1 := fresh in let Z2 := fresh in
    destruct (position_found w l ltac:(cbn; tauto)) as (z & Z1 & Z2);
    cond (Z.leb 0 z) ltac:(unfold value; cbn -[position to_number existsb]; rewrite ?Z0, ?C0; cbn -[position to_number existsb];
       change (to_number "0") with (Some 0%Z); rewrite Z1, ?andb_true_r, ?orb_false_r);
    rewrite <- Z2; clear Z1 Z2;
    destruct (Z.leb 0 z); cmd idtac; rewrite !s_nil; unfold leave; cbn [vars cache funs up incs failed raise_vars];
    (eexists; split; [reflexivity|]; split; [reflexivity|]; intros x X; unfold upd; destruct (String.eqb_spec "itsMyPlatform" x); congruence).
  cond (platform s =? "ARM") ltac:(unfold value; cbn; rewrite PS' by (cbn; tauto); rewrite ?andb_true_r, ?orb_false_r).
  destruct (platform s =? "ARM").
  { cmd ltac:(unfold value; cbn; rewrite L3; cbn). rewrite s_nil. tail w arm_dirs WE W3 TL CT Z0 C0. }
  cond (platform s =? "ARM64") ltac:(unfold value; cbn; rewrite PS' by (cbn; tauto); rewrite ?andb_true_r, ?orb_false_r).
  destruct (platform s =? "ARM64").
  { cmd ltac:(unfold value; cbn; rewrite L4; cbn). rewrite !s_nil. tail w arm64_dirs WE W3 TL CT Z0 C0. }
  cond (platform s =? "Win32") ltac:(unfold value; cbn; rewrite PS' by (cbn; tauto); rewrite ?andb_true_r, ?orb_false_r).
  destruct (platform s =? "Win32").
  { cmd ltac:(unfold value; cbn; rewrite L1; cbn). rewrite !s_nil. tail w win32_dirs WE W3 TL CT Z0 C0. }
  cond (platform s =? "x64") ltac:(unfold value; cbn; rewrite PS' by (cbn; tauto); rewrite ?andb_true_r, ?orb_false_r).
  destruct (platform s =? "x64").
  { cmd ltac:(unfold value; cbn; rewrite L2; cbn). rewrite !s_nil. tail w win64_dirs WE W3 TL CT Z0 C0. }
  cmd idtac. rewrite !s_nil. tail w (@nil string) WE W3 TL CT Z0 C0.
Qed.

(** * Where it is *)

Definition other (x : string) : Prop := x <> "_locator" /\ x <> "_loctaor".

Ltac names O := repeat match goal with |- context [?ch ?x] => match type of (O x) with _ -> _ -> ch x = None => rewrite (O x) by discriminate end end.

Lemma no_keyword : forall w, platform_matches s w = true -> (w =? "PARENT_SCOPE") = false.
Proof.
  intros w E. destruct (String.eqb_spec w "PARENT_SCOPE"); [|reflexivity]. subst. unfold platform_matches in E.
  repeat match type of E with context [if ?b then _ else _] => destruct b end; discriminate E.
Qed.

Record debug_vars (x : path) (vm : string) (V : string -> option string) : Prop := {
  dv_name : V "_locator_parentdir_name" = Some (last (removelast x) "");
  dv_parent : V "_locator_parent_dir" = Some (spell (removelast x));
  dv_vs : V "_vs_match" = Some vm;
  dv_split : V "_split_libs" = Some "1";
  dv_dir : V "_locator_dir" = Some (spell x);
  dv_none : forall y, In y ["theList"; "0"; "_locator"; "ANSAK_STRING_LIB"; "ANSAK_LIB_BY_GENERATOR"] -> V y = None;
  dv_ahead : forall y, In y ahead -> V y = None;
  dv_inputs : forall y, In y ["SQLite3_FOUND"; "ANSAK_ISOLATE"; "ANSAK_DEBUG"; "CMAKE_GENERATOR_PLATFORM"] -> V y = vs y;
  dv_srch : V "_srch_lib" = Some (if unix s then "libansak.a" else "ansak.lib");
  dv_srch_sqlite : V "_srch_sqlite_lib" = Some (if unix s then "libansakSqlite.a" else "ansakSqlite.lib");
  dv_win32 : V "win32Dirs" = Some "Win32;x86;i386;X86";
  dv_win64 : V "win64Dirs" = Some "x64;Win64;x86-64;x86_64;X64;X86_64;X86-64;amd64";
  dv_arm : V "armDirs" = Some "ARM;Arm;arm";
  dv_arm64 : V "arm64Dirs" = Some "ARM64;Arm64;arm64" }.

Definition debug_root (x : path) : path :=
  if last (removelast x) "" =? "lib" then removelast (removelast x)
  else if platform_matches s (last (removelast x) "") then removelast (removelast (removelast x)) else removelast x.

Definition state_of (V ch : string -> option string) : state :=
  {| vars := V; cache := ch; funs := the_funs; up := []; incs := []; failed := false |}.

Definition debug_block : block := Eval vm_compute in match skip 4 seg2 with If _ _ b _ => b | _ => Nil end.
Definition debug_root_block : block := Eval vm_compute in take 1 (skip 7 debug_block).
Definition debug_lib_block : block := Eval vm_compute in skip 8 debug_block.

Lemma run_debug_root : forall x vm ch V, debug_vars x vm V -> V "_dirpath" = Some (spell (removelast x)) -> Forall proper x -> removelast x <> [] ->
  ~ lone (removelast x) -> ~ lone (removelast (removelast x)) ->
  (forall y, y <> "_locator" -> y <> "_loctaor" -> y <> "ANSAK_LIB_BY_GENERATOR" -> ch y = None) ->
  exists V', rw debug_root_block (state_of V ch) = Went (state_of V' ch) /\ V' "_ansak_root" = Some (spell (debug_root x)) /\
    (forall y, ~ In y ["_ansak_root"; "itsMyPlatform"; "_arch_tag"; "_dirpath"; "_locator_grandparent_dir"; "_locator_grandparentdir_name"] -> V' y = V y).
Proof.
  intros x vm ch V [] DP P NP LP LG O.
  assert (PR : Forall proper (removelast x)) by now apply proper_up.
  assert (PG : Forall proper (removelast (removelast x))) by now apply proper_up.
  unfold debug_root_block, state_of, debug_root.
  cond (last (removelast x) "" =? "lib") ltac:(unfold value; cbn; rewrite dv_name0; rewrite ?andb_true_r, ?orb_false_r).
  destruct (last (removelast x) "" =? "lib").
  - cmd ltac:(unfold value; cbn; rewrite dv_parent0; cbn; rewrite (directory_not_lone _ LP PR)). rewrite !s_nil.
    eexists. split; [reflexivity|]. split; [reflexivity|]. intros y N. unfold upd. destruct (String.eqb_spec "_ansak_root" y); [|reflexivity]. subst. cbn in N. tauto.
  - destruct (platform_call V ch (last (removelast x) "")) as (V1 & E & VP & VO); auto using proper_last.
    1,3,5: apply dv_none0 || apply dv_inputs0; cbn; tauto.
    1,2,3: apply O; discriminate.
    change [{| quoted := false; pieces := [Var "_locator_parentdir_name"] |}; {| quoted := false; pieces := [Lit "itsMyPlatform"] |}] with platform_args.
    rewrite (do_went _ _ _ _ _ _ _ _ _ E). clear E.
    pose proof (proper_last _ PR NP) as (W1 & _ & W3 & _).
    assert (WE : (last (removelast x) "" =? "") = false) by now apply String.eqb_neq.
    assert (N1 : V1 "_locator_parentdir_name" = Some (last (removelast x) "")) by now rewrite VO.
    assert (N2 : V1 "_dirpath" = Some (spell (removelast x))) by now rewrite VO.
    assert (N3 : V1 "_locator_parent_dir" = Some (spell (removelast x))) by now rewrite VO.
    cond (platform_matches s (last (removelast x) ""))
      ltac:(unfold value; cbn -[platform_matches]; rewrite VP; cbn -[platform_matches]; unfold ifs; destruct (platform_matches s (last (removelast x) ""))).
    destruct (platform_matches s (last (removelast x) "")) eqn:PM.
    + pose proof (no_keyword _ PM) as NK. cmd ltac:(unfold value; cbn; rewrite N1; cbn; rewrite (split_free ";" _ "" W3); cbn; rewrite WE; cbn; rewrite NK; cbn).
      cmd ltac:(unfold value; cbn; rewrite N2; cbn; rewrite (directory_not_lone _ LP PR)).
      cmd idtac. cmd idtac. cond (negb (name_of (spell (removelast (removelast x))) =? "lib")) ltac:(rewrite ?andb_true_r, ?orb_false_r).
      rewrite if_same, s_nil. cmd ltac:(rewrite (directory_not_lone _ LG PG)). rewrite !s_nil.
      eexists. split; [reflexivity|]. split; [reflexivity|]. intros y N. unfold upd. cbn in N.
      repeat match goal with |- context [?a =? y] => destruct (String.eqb_spec a y); [subst; tauto|] end. apply VO. intros ->. tauto.
    + cmd ltac:(unfold value; cbn; rewrite N3; cbn). rewrite !s_nil.
      eexists. split; [reflexivity|]. split; [reflexivity|]. intros y N. unfold upd. cbn in N.
      repeat match goal with |- context [?a =? y] => destruct (String.eqb_spec a y); [subst; tauto|] end. apply VO. intros ->. tauto.
Qed.

Lemma run_debug_lib : forall n x vm ch V, debug_vars x vm V -> Forall proper x -> x <> [] -> last x "" = "Debug" -> truth vm = visual_studio s ->
  V "_ansak_root" = Some (spell (debug_root x)) -> Forall proper (debug_root x) -> 
  ch "_locator" = Some (spell (x ++ [n])) ->
  ch "ANSAK_LIB_BY_GENERATOR" = (if visual_studio s && negb (no_generator_libs s) then Some "True" else None) ->
  (forall y, y <> "_locator" -> y <> "_loctaor" -> y <> "ANSAK_LIB_BY_GENERATOR" -> ch y = None) ->
  exists st', rw debug_lib_block (state_of V ch) = Went st' /\ placed (Some (x ++ [n])) st'.
Proof.
  intros n x vm ch V [] P NX D VT RV RP C CG O.
  pose proof (O "ANSAK_STRING_LIB" ltac:(discriminate) ltac:(discriminate) ltac:(discriminate)) as O1.
  pose proof (dv_none0 "_locator" ltac:(cbn; tauto)) as VL.
  pose proof (dv_none0 "ANSAK_STRING_LIB" ltac:(cbn; tauto)) as VA.
  pose proof (dv_none0 "ANSAK_LIB_BY_GENERATOR" ltac:(cbn; tauto)) as VG.
  assert (LOC : locate s (x ++ [n]) =
    (if visual_studio s then ByConfig (removelast x) "ansakString.lib" else Exactly (x ++ [n]), debug_root x,
     if visual_studio s then Some (removelast x) else None)).
  { unfold locate, directory, name. rewrite removelast_last, D. cbn [String.eqb Ascii.eqb Bool.eqb negb]. unfold debug_root. now destruct (visual_studio s). }
  assert (NE : exists a b, x ++ [n] = a :: b) by (destruct x; cbn; eauto). destruct NE as (na & nb & NE).
  unfold debug_lib_block, state_of.
  cond (visual_studio s) ltac:(unfold value; cbn; rewrite dv_vs0; cbn; rewrite VT, ?andb_true_r, ?orb_false_r).
  Ltac places NE LOC RV RP dv_parent0 dv_vs0 dv_split0 dv_dir0 dv_srch0 dv_srch_sqlite0 dv_inputs0 dv_ahead0 VS VG CG O VT VA :=
    eexists; split; [reflexivity|]; constructor; cbn [or_root]; rewrite ?LOC, ?VS; cbn [fst snd]; unfold value; cbn -[locate ahead In];
    [ intros y I; split; [now apply dv_ahead0|]; cbn in I; repeat destruct I as [<-|I]; try contradiction; cbn; apply O; discriminate
    | intros y I; rewrite dv_inputs0 by (cbn in I |- *; tauto); cbn in I; repeat destruct I as [<-|I]; try contradiction; cbn; rewrite O by discriminate; apply opt_id
    | now rewrite dv_srch0
    | now rewrite dv_srch_sqlite0
    | rewrite dv_dir0; unfold directory; rewrite removelast_last; now apply path_of_spell
    | rewrite RV; now apply path_of_spell
    | exact RP
    | rewrite ?VA; try rewrite NE; reflexivity
    | rewrite dv_vs0, dv_split0; cbn; rewrite VT, ?VS; reflexivity
    | try rewrite dv_parent0; reflexivity || exact I
    | rewrite VG, CG, ?VS; reflexivity
    | reflexivity | reflexivity | reflexivity | reflexivity ].
  destruct (visual_studio s) eqn:VS.
  - cmd ltac:(unfold value; cbn; rewrite dv_parent0; cbn; unfold store_cache; cbn; rewrite O1). rewrite !s_nil.
    places NE LOC RV RP dv_parent0 dv_vs0 dv_split0 dv_dir0 dv_srch0 dv_srch_sqlite0 dv_inputs0 dv_ahead0 VS VG CG O VT VA.
  - cmd ltac:(unfold value; cbn; rewrite VL, C; cbn; unfold store_cache; cbn; rewrite O1). rewrite !s_nil.
    places NE LOC RV RP dv_parent0 dv_vs0 dv_split0 dv_dir0 dv_srch0 dv_srch_sqlite0 dv_inputs0 dv_ahead0 VS VG CG O VT VA.
Qed.

Lemma run_some : forall n x ch, proper n -> drive n = false -> Forall proper x -> library_dir x ->
  ch "_locator" = Some (spell (x ++ [n])) -> (forall y, y <> "_locator" -> y <> "_loctaor" -> ch y = None) ->
  exists st', rw seg2 (base ch) = Went st' /\ placed (Some (x ++ [n])) st'.
Proof.
  intros n x ch PN DN P (L & LD) C O. unfold seg2, base.
  assert (PP : Forall proper (x ++ [n])) by (apply Forall_app; split; [exact P|now constructor]).
  assert (R : rooted (x ++ [n])) by (destruct x as [|c [|e x]]; cbn; [congruence|discriminate|discriminate]).
  assert (NE : exists a b, x ++ [n] = a :: b) by (destruct x; cbn; eauto).
  pose proof (O "ANSAK_STRING_LIB" ltac:(discriminate) ltac:(discriminate)) as O1.
  cond false ltac:(look; rewrite C; cbn; rewrite spell_word by reflexivity). rewrite s_nil.
  cmd ltac:(look; rewrite C; cbn; rewrite (directory_spell _ R PP), removelast_last). cmd idtac.
  cmd ltac:(rewrite (name_not_lone x L P)).
  cond (negb (last x "" =? "Debug")) ltac:(rewrite andb_true_r, orb_false_r).
  destruct (last x "" =? "Debug") eqn:D; cbn [negb]; cbv iota.
  - apply String.eqb_eq in D. specialize (LD D) as (NP & LP & LG).
    assert (PR : Forall proper (removelast x)) by now apply proper_up.
    assert (PG : Forall proper (removelast (removelast x))) by now apply proper_up.
    pose proof (or_generator s OR) as (G1 & G2). pose proof (sf_generator s vs env SF) as G.
    assert (GE : (generator s =? "") = false) by now apply String.eqb_neq.
    cmd idtac.
    assert (VM : exists vm, truth vm = visual_studio s /\ (if begins "Visual Studio" (generator s) then "Visual Studio" else "") = vm).
    { eexists. split; [|reflexivity]. rewrite begins_starts. unfold visual_studio. now destruct (starts _ _). }
    destruct VM as (vm & VT & VM).
    cmd ltac:(look; rewrite G; cbn; rewrite (split_free ";" _ "" G2); cbn; rewrite GE; cbn; rewrite VM).
    cond (visual_studio s && negb (no_generator_libs s))
      ltac:(look; rewrite VT; destruct (no_generator_libs s), (visual_studio s)).
    match goal with |- context [run_with env bef aft d call (if ?t then ?a else Nil) ?st] =>
      assert (S1 : exists ch1, rw (if t then a else Nil) st = Went {| vars := vars st; cache := ch1; funs := the_funs; up := []; incs := []; failed := false |} /\
        ch1 "ANSAK_LIB_BY_GENERATOR" = (if t then Some "True" else None) /\ ch1 "_locator" = Some (spell (x ++ [n])) /\
        (forall y, y <> "_locator" -> y <> "_loctaor" -> y <> "ANSAK_LIB_BY_GENERATOR" -> ch1 y = None))
    end.
    { destruct (visual_studio s && negb (no_generator_libs s)).
      - cmd ltac:(unfold store_cache; cbn; rewrite (O "ANSAK_LIB_BY_GENERATOR") by discriminate). rewrite s_nil. eexists. split; [reflexivity|].
        split; [reflexivity|]. split; [exact C|]. intros y Y1 Y2 Y3. unfold upd. destruct (String.eqb_spec "ANSAK_LIB_BY_GENERATOR" y); [congruence|now apply O].
      - rewrite s_nil. exists ch. split; [reflexivity|]. split; [now apply O|]. split; [exact C|]. auto. }
    destruct S1 as (ch1 & -> & CG & C1 & O2). cbn [vars]. clear C O1 O.
    cmd ltac:(rewrite (directory_not_lone x L P)). cmd idtac. cmd ltac:(rewrite (name_not_lone _ LP PR)).
    cond (visual_studio s) ltac:(rewrite VT, ?andb_true_r, ?orb_false_r).
    assert (NX : x <> []) by (intros ->; discriminate D).
    assert (RP : Forall proper (debug_root x)).
    { unfold debug_root. repeat match goal with |- context [if ?b then _ else _] => destruct b end; auto using proper_up. }
    assert (FIN : forall V, debug_vars x vm V -> V "_dirpath" = Some (spell (removelast x)) ->
      exists st', rw (skip 7 debug_block) (state_of V ch1) = Went st' /\ placed (Some (x ++ [n])) st').
    { intros V DV DP. destruct (run_debug_root x vm ch1 V DV DP P NP LP LG O2) as (V' & E' & R' & S').
      rewrite (run_parts env bef aft d call 1). change (take 1 (skip 7 debug_block)) with debug_root_block. rewrite E'.
      change (skip 1 (skip 7 debug_block)) with debug_lib_block.
      apply (run_debug_lib n x vm ch1 V'); auto. clear -DV S'. destruct DV.
      constructor; try (intros y I); rewrite S'; auto; cbn in *; intro J; repeat destruct J as [J|J]; subst; try discriminate; intuition discriminate. }
    Ltac fin FIN :=
      match goal with |- context [run_with _ _ _ _ _ _ {| vars := ?V; cache := _; funs := _; up := _; incs := _; failed := _ |}] =>
        let H := fresh in pose proof (FIN V) as H; unfold state_of in H; cbn [skip debug_block] in H;
        let st' := fresh in let E' := fresh in let PL := fresh in
        destruct H as (st' & E' & PL); [|reflexivity|exists st'; rewrite E', !s_nil; auto]
      end.
    destruct (visual_studio s) eqn:VS.
    1: cmd idtac.
    all: rewrite s_nil; fin FIN; constructor; try reflexivity;
      intros y I; cbn in I; repeat destruct I as [<-|I]; try contradiction; cbn; clean; reflexivity.
  - cmd idtac. cmd ltac:(rewrite (directory_not_lone x L P)).
    cond (negb (last x "" =? "lib")) ltac:(rewrite ?andb_true_r, ?orb_false_r). rewrite if_same, s_nil.
    cmd ltac:(look; rewrite C; cbn; unfold store_cache; cbn; rewrite O1). cmd idtac. rewrite !s_nil.
    assert (LOC : locate s (x ++ [n]) = (Exactly (x ++ [n]), removelast x, None)).
    { unfold locate, directory, name. now rewrite removelast_last, D. }
    destruct NE as (na & nb & NE).
    eexists. split; [reflexivity|]. constructor; cbn [or_root]; rewrite ?LOC; cbn [fst snd]; try reflexivity.
    + intros y I. cbn in I. repeat destruct I as [<-|I]; try contradiction; cbn; clean; (split; [reflexivity|]); unfold upd; cbn; apply O; discriminate.
    + intros y I. cbn in I. repeat destruct I as [<-|I]; try contradiction; unfold value; cbn; rewrite O by discriminate; now destruct (vs _).
    + unfold value. cbn. unfold directory. rewrite removelast_last. now apply path_of_spell.
    + unfold value. cbn. apply path_of_spell. now apply proper_up.
    + now apply proper_up.
    + look. now rewrite NE.
    + look. rewrite O by discriminate. reflexivity.
    + look. now rewrite O.
Qed.

End Place.
