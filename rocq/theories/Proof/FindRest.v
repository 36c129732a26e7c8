(** The text of FindANSAK.cmake: the headers, the other libraries, and the whole. *)
From Coq Require Import ZArith List Bool String Ascii Lia.
From Verif Require Import Gen.TextScripts Model.Make Model.Find Model.Cmake Model.FindText.
From Verif Require Import Proof.InstallFacts Proof.CmakePaths Proof.FindBlocks Proof.FindSearch Proof.FindPlace.
Import ListNotations.
Open Scope string_scope.
Open Scope list_scope.

Arguments truth : simpl never.
Arguments path_of : simpl never.
Arguments spell : simpl never.
Arguments directory_of : simpl never.
Arguments name_of : simpl never.
Arguments first_file : simpl never.
Arguments begins : simpl never.
Arguments run_with : simpl never.
Arguments find_win_lib : simpl never.
Arguments Cmake.run : simpl never.
Arguments not_found : simpl never.
Arguments do_find : simpl never.
Arguments search : simpl never.

Definition headers_block : block := Eval vm_compute in take 4 rest3.
Definition rest4 : block := Eval vm_compute in skip 4 rest3.
Definition stop_block : block := Eval vm_compute in take 1 rest4.
Definition include_block : block := Eval vm_compute in take 4 (skip 1 rest4).
Definition rest5 : block := Eval vm_compute in skip 5 rest4.
Definition lib_block : block := Eval vm_compute in take 1 rest5.
Definition sqlite_block : block := Eval vm_compute in take 1 (skip 1 rest5).
Definition incs_block : block := Eval vm_compute in take 1 (skip 2 rest5).
Definition note_block : block := Eval vm_compute in skip 3 rest5.

(** What the search for [n] leaves in the cache *)
Definition got (n : string) (o : option path) : string := match o with Some p => spell p | None => not_found n end.

Lemma got_missing : forall n o, free "/" (not_found n) = true -> String.eqb (got n o) (not_found n) = match o with Some _ => false | None => true end.
Proof. intros n [p|] F; cbn; [now apply spell_word|apply String.eqb_refl]. Qed.

Section Rest.
Variables (s : settings) (d : disk) (vs : string -> option string) (env : string -> string).
Hypothesis SF : stands_for s vs env.
Hypothesis OR : ordinary s.

Notation bef := (fun k => earlier s (find_kind k)).
Notation aft := (fun k => later s (find_kind k)).
Notation call := (Cmake.run env bef aft d 0).
Notation rw := (run_with env bef aft d call).

(** find_library and find_file with one hint *)
Lemma find_one : forall k n name h st tail, cache st n = None -> In tail [[]; [(false, "DOC"); (true, "ANSAK general library")]; [(false, "DOC"); (true, "ANSAK SQLite library")]] ->
  do_find bef aft d k n name ((false, "HINTS") :: (true, h) :: tail) st =
  Went (with_cache n (got n (search s d (find_kind k) true [path_of h] name)) st).
Proof.
  intros k n name h st tail C I. unfold do_find.
  assert (R : requests Nowhere ((false, "HINTS") :: (true, h) :: tail) {| hints := []; needed := false; default := true |} =
    Some {| hints := [h]; needed := false; default := true |}) by (cbn in I; repeat destruct I as [<-|I]; try contradiction; reflexivity).
  rewrite R. unfold already. rewrite C. cbn. unfold search. change (first_file d) with (first d).
  now destruct (first d _ name).
Qed.

Definition hint (root : path) : list path := [root ++ ["include"; "ansak"]].

Definition header (root : path) (n : string) : option path := search s d Find.Header true (hint root) n.

Record headed (root : path) (V ch V' ch' : string -> option string) : Prop := {
  hd_vars : forall y, y <> "_include_dir" -> V' y = V y;
  hd_string : ch' "ANSAK_STRING_HEADER" = Some (got "ANSAK_STRING_HEADER" (header root "string.hxx"));
  hd_lib : ch' "ANSAK_LIB_HEADER" = Some (got "ANSAK_LIB_HEADER" (header root "runtime_exception.hxx"));
  hd_sqlite : ch' "ANSAK_SQLITE_HEADER" = Some (got "ANSAK_SQLITE_HEADER" (header root "sqlite_exception.hxx"));
  hd_cache : forall y, ~ In y ["ANSAK_STRING_HEADER"; "ANSAK_LIB_HEADER"; "ANSAK_SQLITE_HEADER"] -> ch' y = ch y }.

Lemma run_headers : forall V ch root r, value (state_of V ch) "_ansak_root" = r -> path_of (text r) = root ->
  ch "ANSAK_STRING_HEADER" = None -> ch "ANSAK_LIB_HEADER" = None -> ch "ANSAK_SQLITE_HEADER" = None ->
  exists V' ch', rw headers_block (state_of V ch) = Went (state_of V' ch') /\ headed root V ch V' ch'.
Proof.
  intros V ch root r R P C1 C2 C3. unfold headers_block, state_of in *. unfold value in R. cbn in R.
  assert (PI : path_of (text r ++ "/include/ansak") = root ++ ["include"; "ansak"]).
  { change "/include/ansak" with (String "/" "include/ansak"). rewrite path_of_app, P. reflexivity. }
  cmd ltac:(unfold value; cbn; rewrite R).
  cmd ltac:(rewrite find_one by (cbn; auto); rewrite PI).
  cmd ltac:(rewrite find_one by (cbn; auto); rewrite PI).
  cmd ltac:(rewrite find_one by (cbn; auto); rewrite PI).
  rewrite s_nil. eexists. eexists. split; [reflexivity|]. constructor; try reflexivity.
  - intros y Y. unfold upd. destruct (String.eqb_spec "_include_dir" y); [congruence|reflexivity].
  - intros y Y. cbn in Y. unfold upd. repeat match goal with |- context [?a =? y] => destruct (String.eqb_spec a y); [subst; tauto|] end. reflexivity.
Qed.

(** The other libraries *)
Definition lib_of (o : option path) (dir : path) (split : option path) (file by_config : string) : option lib :=
  match o with
  | None => None
  | Some _ => match search s d Find.Library true [dir] file with
              | None => None
              | Some p => Some (match split with Some parent => ByConfig parent by_config | None => Exactly p end)
              end
  end.

Record sites (dir : path) (split : option path) (V ch : string -> option string) : Prop := {
  si_dir : path_of (text (value (state_of V ch) "_locator_dir")) = dir;
  si_split : truth (text (value (state_of V ch) "_vs_match")) && truth (text (value (state_of V ch) "_split_libs")) =
             match split with Some _ => true | None => false end;
  si_parent : match split with Some p => value (state_of V ch) "_locator_parent_dir" = Some (spell p) | None => True end }.

Lemma spell_found : forall dir f p, search s d Find.Library true [dir] f = Some p -> spell_lib (Exactly p) = spell p.
Proof. intros dir f p E. apply first_some in E as (x & _ & ->). now destruct x. Qed.

Lemma run_lib : forall V ch o dir split f,
  sites dir split V ch -> value (state_of V ch) "_srch_lib" = Some f -> f <> "" -> free ";" f = true ->
  (forall y, In y ["ANSAK_LIB_HEADER"; "_platform_ansak_lib"; "ANSAK_LIB_FOUND"; "ANSAK_LIB"] -> V y = None) ->
  (forall y, In y ["_platform_ansak_lib"; "ANSAK_LIB_FOUND"; "ANSAK_LIB"] -> ch y = None) ->
  ch "ANSAK_LIB_HEADER" = Some (got "ANSAK_LIB_HEADER" o) ->
  exists ch', rw lib_block (state_of V ch) = Went (state_of V ch') /\
    (forall y, ~ In y ["ANSAK_LIB_HEADER"; "_platform_ansak_lib"; "ANSAK_LIB_FOUND"; "ANSAK_LIB"] -> ch' y = ch y) /\
    given_lib (state_of V ch') "ANSAK_LIB_FOUND" "ANSAK_LIB" (lib_of o dir split f "ansak.lib").
Proof.
  intros V ch o dir split f [SD SS SP] F F1 F2 VN CN H. unfold lib_block, state_of, lib_of, given_lib in *. unfold value in *. cbn in SD, SS, SP, F.
  pose proof (VN "ANSAK_LIB_HEADER" ltac:(cbn; tauto)) as V1.
  pose proof (VN "_platform_ansak_lib" ltac:(cbn; tauto)) as V2.
  pose proof (VN "ANSAK_LIB_FOUND" ltac:(cbn; tauto)) as V3.
  pose proof (VN "ANSAK_LIB" ltac:(cbn; tauto)) as V4.
  pose proof (CN "_platform_ansak_lib" ltac:(cbn; tauto)) as C2.
  pose proof (CN "ANSAK_LIB_FOUND" ltac:(cbn; tauto)) as C3.
  pose proof (CN "ANSAK_LIB" ltac:(cbn; tauto)) as C4. clear VN CN.
  assert (FE : (f =? "") = false) by now apply String.eqb_neq.
  cond (match o with Some _ => true | None => false end)
    ltac:(unfold value; cbn; rewrite V1, H; change "ANSAK_LIB_HEADER-NOTFOUND" with (not_found "ANSAK_LIB_HEADER"); rewrite got_missing by reflexivity; destruct o).
  destruct o as [h|].
  - cmd ltac:(unfold value; cbn; rewrite F; cbn; rewrite (split_free ";" f "" F2); cbn; rewrite FE; cbn; rewrite find_one by (cbn; auto); rewrite SD; cbn [find_kind]).
    cond (match search s d Find.Library true [dir] f with Some _ => false | None => true end)
      ltac:(unfold value; cbn; rewrite V2; change "_platform_ansak_lib-NOTFOUND" with (not_found "_platform_ansak_lib"); rewrite got_missing by reflexivity;
            rewrite ?andb_true_r, ?orb_false_r).
    destruct (search s d Find.Library true [dir] f) as [p|] eqn:SE; cbn [got].
    + cmd ltac:(unfold store_cache; cbn; rewrite C3).
      cond (match split with Some _ => true | None => false end) ltac:(unfold value; cbn; rewrite orb_false_r, andb_true_r; rewrite SS).
      destruct split as [q|].
      * cmd ltac:(unfold value; cbn; rewrite SP; cbn; unfold store_cache; cbn; rewrite C4). rewrite !s_nil.
        eexists. split; [reflexivity|]. split.
        -- intros y Y. cbn in Y. unfold upd. repeat match goal with |- context [?a =? y] => destruct (String.eqb_spec a y); [subst; tauto|] end. reflexivity.
        -- unfold value. cbn. rewrite V3, V4. split; reflexivity.
      * cmd ltac:(unfold value; cbn; rewrite V2; cbn; unfold store_cache; cbn; rewrite C4). rewrite !s_nil.
        eexists. split; [reflexivity|]. split.
        -- intros y Y. cbn in Y. unfold upd. repeat match goal with |- context [?a =? y] => destruct (String.eqb_spec a y); [subst; tauto|] end. reflexivity.
        -- unfold value. cbn. rewrite V3, V4. split; [reflexivity|]. symmetry. f_equal. exact (spell_found _ _ _ SE).
    + cmd idtac. cmd ltac:(unfold store_cache; cbn; rewrite C3). rewrite !s_nil.
      eexists. split; [reflexivity|]. split.
      * intros y Y. cbn in Y. unfold upd. repeat match goal with |- context [?a =? y] => destruct (String.eqb_spec a y); [subst; tauto|] end. reflexivity.
      * unfold value. cbn. rewrite V3, V4. split; [discriminate|exact C4].
  - cmd ltac:(unfold store_cache; cbn; rewrite C3). rewrite !s_nil.
    eexists. split; [reflexivity|]. split.
    + intros y Y. cbn in Y. unfold upd. repeat match goal with |- context [?a =? y] => destruct (String.eqb_spec a y); [subst; tauto|] end. reflexivity.
    + unfold value. cbn. rewrite V3, V4. split; [discriminate|exact C4].
Qed.

Lemma run_sqlite : forall V ch o dir split f,
  sites dir split V ch -> value (state_of V ch) "_srch_sqlite_lib" = Some f -> f <> "" -> free ";" f = true ->
  truth (text (value (state_of V ch) "SQLite3_FOUND")) = sqlite3 s ->
  (forall y, In y ["ANSAK_SQLITE_HEADER"; "_platform_ansak_sqlite_lib"; "ANSAK_SQLITE_FOUND"; "ANSAK_SQLITE_LIB"] -> V y = None) ->
  (forall y, In y ["_platform_ansak_sqlite_lib"; "ANSAK_SQLITE_FOUND"; "ANSAK_SQLITE_LIB"] -> ch y = None) ->
  ch "ANSAK_SQLITE_HEADER" = Some (got "ANSAK_SQLITE_HEADER" o) ->
  exists ch', rw sqlite_block (state_of V ch) = Went (state_of V ch') /\
    (forall y, ~ In y ["ANSAK_SQLITE_HEADER"; "_platform_ansak_sqlite_lib"; "ANSAK_SQLITE_FOUND"; "ANSAK_SQLITE_LIB"] -> ch' y = ch y) /\
    given_lib (state_of V ch') "ANSAK_SQLITE_FOUND" "ANSAK_SQLITE_LIB" (if sqlite3 s then lib_of o dir split f "ansakSqlite.lib" else None).
Proof.
  intros V ch o dir split f [SD SS SP] F F1 F2 Q VN CN H. unfold sqlite_block, state_of, lib_of, given_lib in *. unfold value in *. cbn in SD, SS, SP, F, Q.
  pose proof (VN "ANSAK_SQLITE_HEADER" ltac:(cbn; tauto)) as V1.
  pose proof (VN "_platform_ansak_sqlite_lib" ltac:(cbn; tauto)) as V2.
  pose proof (VN "ANSAK_SQLITE_FOUND" ltac:(cbn; tauto)) as V3.
  pose proof (VN "ANSAK_SQLITE_LIB" ltac:(cbn; tauto)) as V4.
  pose proof (CN "_platform_ansak_sqlite_lib" ltac:(cbn; tauto)) as C2.
  pose proof (CN "ANSAK_SQLITE_FOUND" ltac:(cbn; tauto)) as C3.
  pose proof (CN "ANSAK_SQLITE_LIB" ltac:(cbn; tauto)) as C4. clear VN CN.
  assert (FE : (f =? "") = false) by now apply String.eqb_neq.
  Ltac header_there V1 H o := cond (match o with Some _ => true | None => false end)
    ltac:(unfold value; cbn; rewrite V1, H; change "ANSAK_SQLITE_HEADER-NOTFOUND" with (not_found "ANSAK_SQLITE_HEADER"); rewrite got_missing by reflexivity; destruct o).
  Ltac others := let y := fresh "y" in let Y := fresh "Y" in intros y Y; cbn in Y; unfold upd;
    repeat match goal with |- context [?a =? y] => destruct (String.eqb_spec a y); [subst; tauto|] end; reflexivity.
  cond (sqlite3 s) ltac:(unfold value; cbn; rewrite Q, ?andb_true_r, ?orb_false_r).
  destruct (sqlite3 s).
  - header_there V1 H o. destruct o as [h|].
    + cmd ltac:(unfold value; cbn; rewrite F; cbn; rewrite (split_free ";" f "" F2); cbn; rewrite FE; cbn; rewrite find_one by (cbn; auto); rewrite SD; cbn [find_kind]).
      cond (match search s d Find.Library true [dir] f with Some _ => false | None => true end)
        ltac:(unfold value; cbn; rewrite V2; change "_platform_ansak_sqlite_lib-NOTFOUND" with (not_found "_platform_ansak_sqlite_lib"); rewrite got_missing by reflexivity;
              rewrite ?andb_true_r, ?orb_false_r).
      destruct (search s d Find.Library true [dir] f) as [p|] eqn:SE; cbn [got].
      * cmd ltac:(unfold store_cache; cbn; rewrite C3).
        cond (match split with Some _ => true | None => false end) ltac:(unfold value; cbn; rewrite orb_false_r, andb_true_r; rewrite SS).
        destruct split as [q|].
        -- cmd ltac:(unfold value; cbn; rewrite SP; cbn; unfold store_cache; cbn; rewrite C4). rewrite !s_nil.
           eexists. split; [reflexivity|]. split; [others|]. unfold value. cbn. rewrite V3, V4. split; reflexivity.
        -- cmd ltac:(unfold value; cbn; rewrite V2; cbn; unfold store_cache; cbn; rewrite C4). rewrite !s_nil.
           eexists. split; [reflexivity|]. split; [others|]. unfold value. cbn. rewrite V3, V4. split; [reflexivity|]. symmetry. f_equal. exact (spell_found _ _ _ SE).
      * cmd idtac. cmd ltac:(unfold store_cache; cbn; rewrite C3). rewrite !s_nil.
        eexists. split; [reflexivity|]. split; [others|]. unfold value. cbn. rewrite V3, V4. split; [discriminate|exact C4].
    + rewrite !s_nil. exists ch. split; [reflexivity|]. split; [auto|]. unfold value. cbn. rewrite V3, V4, C3. split; [discriminate|exact C4].
  - header_there V1 H o. destruct o as [h|].
    + cmd idtac. cmd ltac:(unfold store_cache; cbn; rewrite C3). rewrite !s_nil.
      eexists. split; [reflexivity|]. split; [others|]. unfold value. cbn. rewrite V3, V4. split; [discriminate|exact C4].
    + cmd ltac:(unfold store_cache; cbn; rewrite C3). rewrite !s_nil.
      eexists. split; [reflexivity|]. split; [others|]. unfold value. cbn. rewrite V3, V4. split; [discriminate|exact C4].
Qed.

(** The messages at the end *)
Lemma run_notes : forall V ch is fl, exists V',
  rw note_block {| vars := V; cache := ch; funs := the_funs; up := []; incs := is; failed := fl |} =
  Went {| vars := V'; cache := ch; funs := the_funs; up := []; incs := is; failed := fl |} /\
  (forall y, y <> "_comp_found" -> y <> "_comp" -> V' y = V y).
Proof.
  intros V ch is fl. unfold note_block.
  Ltac either :=
    match goal with |- context [run_with ?e1 ?b1 ?a1 ?d1 ?c1 (If ?c ?x ?y ?rest) ?st] =>
      let E := fresh "E" in
      eassert (E : condition e1 st c = Some _) by (cbn; reflexivity);
      rewrite (if_which _ d1 e1 c1 c _ x y rest st E); clear E;
      match goal with |- context [run_with e1 b1 a1 d1 c1 (if ?b then x else y) st] => destruct b end
    end.
  either; [|rewrite !s_nil; eexists; split; [reflexivity|auto]].
  cmd idtac.
  either; [cmd idtac|]; rewrite s_nil; (either; [cmd idtac|]); rewrite s_nil; (either; [cmd idtac|]); rewrite !s_nil;
    (eexists; split; [reflexivity|]; intros y Y1 Y2; unfold upd;
     repeat match goal with |- context [?a =? y] => destruct (String.eqb_spec a y); [congruence|] end; reflexivity).
Qed.

(** Where the header is *)
Lemma spell_same : forall p q, Forall proper p -> Forall proper q -> String.eqb (spell p) (spell q) = Make.same p q.
Proof.
  intros p q P Q. destruct (Make.same p q) eqn:E.
  - apply same_true in E. subst. apply String.eqb_refl.
  - apply same_false in E. apply String.eqb_neq. intro X. apply E. now apply spell_inj.
Qed.

Lemma run_include : forall V ch root p, header root "string.hxx" = Some p -> Forall proper root ->
  V "ANSAK_STRING_HEADER" = None -> V "ANSAK_FOUND" = None -> V "ANSAK_INCLUDE" = None -> ch "ANSAK_FOUND" = None -> ch "ANSAK_INCLUDE" = None ->
  ch "ANSAK_STRING_HEADER" = Some (spell p) ->
  exists V' ch', rw include_block (state_of V ch) = Went (state_of V' ch') /\
    (forall y, y <> "_file_dir" -> y <> "_include_path" -> V' y = V y) /\
    (forall y, y <> "ANSAK_FOUND" -> y <> "ANSAK_INCLUDE" -> ch' y = ch y) /\
    ch' "ANSAK_FOUND" = Some "True" /\
    ch' "ANSAK_INCLUDE" = (if standard (removelast (removelast p)) then None else Some (spell (removelast (removelast p)))) /\
    Forall proper (removelast (removelast p)).
Proof.
  intros V ch root p E R V1 V2 V3 C1 C2 C3. unfold include_block, state_of.
  assert (S : exists y, p = y ++ ["string.hxx"] /\ Forall proper y /\ ~ lone y).
  { unfold header, search, hint in E. apply first_some in E as (y & I & ->). exists y. split; [reflexivity|].
    apply in_app_or in I as [I|I]; [|apply in_app_or in I as [[<-|[]]|I]].
    - split; [apply (or_dirs s OR Find.Header)|apply (or_headers s OR)]; apply in_or_app; tauto.
    - split.
      + apply Forall_app. split; [exact R|]. repeat constructor; apply proper_word; cbn; tauto.
      + destruct root as [|a [|b root]]; cbn; intro X; exact X.
    - split; [apply (or_dirs s OR Find.Header)|apply (or_headers s OR)]; apply in_or_app; tauto. }
  destruct S as (y & -> & PY & LY).
  assert (PP : Forall proper (y ++ ["string.hxx"])) by (apply Forall_app; split; [exact PY|]; repeat constructor; apply proper_word; cbn; tauto).
  assert (LP : ~ lone (y ++ ["string.hxx"])) by (destruct y as [|a [|b y]]; cbn; intro X; [discriminate X|exact X|exact X]).
  cmd ltac:(unfold store_cache; cbn; rewrite C1).
  cmd ltac:(unfold value; cbn; rewrite V1, C3; cbn; rewrite (directory_not_lone _ LP PP), removelast_last).
  cmd ltac:(rewrite (directory_not_lone _ LY PY)). rewrite removelast_last.
  assert (PU : Forall proper (removelast y)) by now apply proper_up.
  assert (S1 : (spell (removelast y) =? "/usr/include") = Make.same (removelast y) ["usr"; "include"]).
  { change "/usr/include" with (spell ["usr"; "include"]). apply spell_same; [exact PU|]. repeat constructor; discriminate. }
  assert (S2 : (spell (removelast y) =? "/usr/local/include") = Make.same (removelast y) ["usr"; "local"; "include"]).
  { change "/usr/local/include" with (spell ["usr"; "local"; "include"]). apply spell_same; [exact PU|]. repeat constructor; discriminate. }
  cond (standard (removelast y)) ltac:(rewrite S1, S2, ?andb_true_r, ?orb_false_r; unfold standard).
  destruct (standard (removelast y)).
  - rewrite !s_nil. eexists. eexists. split; [reflexivity|]. split; [|split; [|split; [reflexivity|split; [cbn; exact C2|exact PU]]]];
      intros z Z1 Z2; unfold upd; repeat match goal with |- context [?a =? z] => destruct (String.eqb_spec a z); [congruence|] end; reflexivity.
  - cmd ltac:(unfold store_cache; cbn; rewrite C2). rewrite !s_nil. eexists. eexists. split; [reflexivity|]. split; [|split; [|split; [reflexivity|split; [reflexivity|exact PU]]]];
      intros z Z1 Z2; unfold upd; repeat match goal with |- context [?a =? z] => destruct (String.eqb_spec a z); [congruence|] end; reflexivity.
Qed.

Lemma run_incs : forall V ch (o : option path), V "ANSAK_INCLUDE" = None -> ch "ANSAK_INCLUDE" = option_map spell o ->
  (forall p, o = Some p -> Forall proper p) -> truth (text (value (state_of V ch) "ANSAK_ISOLATE")) = isolate s ->
  rw incs_block (state_of V ch) =
  Went {| vars := V; cache := ch; funs := the_funs; up := []; failed := false;
          incs := match o with Some _ => if isolate s then [] else ["ANSAK_INCLUDE"] | None => [] end |}.
Proof.
  intros V ch o V1 C P I. unfold incs_block, state_of in *. unfold value in I. cbn in I.
  cond (match o with Some _ => negb (isolate s) | None => false end)
    ltac:(unfold value; cbn; rewrite V1, C, I; destruct o as [p|]; cbn; [rewrite (truth_all p (P p eq_refl))|]; rewrite ?andb_true_r, ?orb_false_r).
  destruct o as [p|]; [destruct (isolate s)|]; cbn [negb]; [|cmd idtac|]; rewrite !s_nil; reflexivity.
Qed.

Lemma run_stop : forall V ch o, V "ANSAK_STRING_HEADER" = None -> ch "ANSAK_STRING_HEADER" = Some (got "ANSAK_STRING_HEADER" o) ->
  V "ANSAK_FOUND" = None -> ch "ANSAK_FOUND" = None ->
  match o with
  | Some _ => rw stop_block (state_of V ch) = Went (state_of V ch)
  | None => exists st, rw stop_block (state_of V ch) = Left st /\ failed st = true /\ value st "ANSAK_FOUND" = Some "False"
  end.
Proof.
  intros V ch o V1 C V2 C2. unfold stop_block, state_of.
  destruct o as [p|].
  - cond false ltac:(unfold value; cbn; rewrite V1, C; change "ANSAK_STRING_HEADER-NOTFOUND" with (not_found "ANSAK_STRING_HEADER"); rewrite got_missing by reflexivity).
    now rewrite !s_nil.
  - cond true ltac:(unfold value; cbn; rewrite V1, C; change "ANSAK_STRING_HEADER-NOTFOUND" with (not_found "ANSAK_STRING_HEADER"); rewrite got_missing by reflexivity).
    cmd ltac:(unfold store_cache; cbn; rewrite C2). cmd idtac. rewrite s_do. cbn. eexists. split; [reflexivity|]. split; [reflexivity|].
    unfold value. cbn. now rewrite V2.
Qed.

Lemma value_eq : forall V ch V' ch' y, V' y = V y -> ch' y = ch y -> value (state_of V' ch') y = value (state_of V ch) y.
Proof. intros V ch V' ch' y A B. unfold value. cbn. now rewrite A, B. Qed.

Lemma component_lib : forall there root dir split h file by_config,
  component s d there root dir split h file by_config = if there then lib_of (header root h) dir split file by_config else None.
Proof. reflexivity. Qed.

Lemma run_rest : forall loc st, placed s vs loc st -> reports (rw rest3 st) (conclude s d loc).
Proof.
  intros loc [V ch F U I X] [PA PI P1 P2 PD PR PP PL PS PT PG PF PU PX PZ]. cbn in PF, PU, PX, PZ. subst F U I X.
  change {| vars := V; cache := ch; funs := the_funs; up := []; incs := []; failed := false |} with (state_of V ch) in *.
  unfold conclude. change (match loc with Some p => p | None => [] end) with (or_root loc).
  destruct (locate s (or_root loc)) as ((sl, root), split) eqn:L. cbn [fst snd] in *.
  assert (AV : forall y, In y ahead -> V y = None) by (intros y J; now apply (PA y J)).
  assert (AC : forall y, In y ahead -> ch y = None) by (intros y J; now apply (PA y J)). clear PA.
  rewrite (run_parts env bef aft d call 4). change (take 4 rest3) with headers_block. change (skip 4 rest3) with rest4.
  destruct (run_headers V ch root _ eq_refl PR) as (V1 & c1 & E & [HV H1 H2 H3 HC]); [apply AC; cbn; tauto..|].
  rewrite E. clear E.
  assert (AV1 : forall y, In y ahead -> V1 y = None).
  { intros y J. rewrite HV; [now apply AV|]. intros ->. cbn in J. intuition discriminate. }
  rewrite (run_parts env bef aft d call 1). change (take 1 rest4) with stop_block.
  pose proof (run_stop V1 c1 (header root "string.hxx") ltac:(apply AV1; cbn; tauto) H1 ltac:(apply AV1; cbn; tauto)
    ltac:(rewrite HC by (cbn; intuition discriminate); apply AC; cbn; tauto)) as ST.
  change (search s d Find.Header true [root ++ ["include"; "ansak"]] "string.hxx") with (header root "string.hxx").
  destruct (header root "string.hxx") as [p|] eqn:HD.
  2:{ destruct ST as (st & -> & S1 & S2). exists st. auto. }
  rewrite ST. clear ST. cbn [got] in H1.
  rewrite (run_parts env bef aft d call 4). change (take 4 (skip 1 rest4)) with include_block. change (skip 4 (skip 1 rest4)) with rest5.
  destruct (run_include V1 c1 root p HD PP) as (V2 & c2 & E & IV & IC & IF' & II & IP); try (apply AV1; cbn; tauto); try exact H1;
    try (rewrite HC by (cbn; intuition discriminate); apply AC; cbn; tauto).
  rewrite E. clear E.
  rewrite (run_parts env bef aft d call 1). change (take 1 rest5) with lib_block.
  assert (K2 : forall y, ~ In y ["_include_dir"; "_file_dir"; "_include_path"; "ANSAK_STRING_HEADER"; "ANSAK_LIB_HEADER"; "ANSAK_SQLITE_HEADER"; "ANSAK_FOUND"; "ANSAK_INCLUDE"] ->
    V2 y = V y /\ c2 y = ch y).
  { intros y N. cbn in N. split.
    - rewrite IV, HV; [reflexivity|intros ->; tauto..].
    - rewrite IC, HC; [reflexivity|cbn; intuition congruence|intros ->; tauto..]. }
  assert (AV2 : forall y, In y ahead -> V2 y = None).
  { intros y J. rewrite IV; [now apply AV1|intros ->; cbn in J; intuition discriminate..]. }
  assert (VK2 : forall y, ~ In y ["_include_dir"; "_file_dir"; "_include_path"; "ANSAK_STRING_HEADER"; "ANSAK_LIB_HEADER"; "ANSAK_SQLITE_HEADER"; "ANSAK_FOUND"; "ANSAK_INCLUDE"] ->
    value (state_of V2 c2) y = value (state_of V ch) y) by (intros y N; now apply value_eq; apply K2).
  Ltac away := cbn; intuition discriminate.
  destruct (run_lib V2 c2 (header root "runtime_exception.hxx") (directory (or_root loc)) split (if unix s then "libansak.a" else "ansak.lib"))
    as (c3 & E & LC & LG).
  { constructor; [now rewrite VK2 by away|now rewrite !VK2 by away|]. destruct split; [now rewrite VK2 by away|exact I]. }
  { rewrite VK2 by away. exact P1. }
  { now destruct (unix s). }
  { now destruct (unix s). }
  { intros y J. apply AV2. cbn in J |- *. tauto. }
  { intros y J. rewrite (proj2 (K2 y ltac:(intro N; cbn in N, J; intuition congruence))). apply AC. cbn in J |- *. tauto. }
  { rewrite IC by discriminate. exact H2. }
  rewrite E. clear E.
  rewrite (run_parts env bef aft d call 1). change (take 1 (skip 1 rest5)) with sqlite_block.
  assert (VK3 : forall y, ~ In y ["_include_dir"; "_file_dir"; "_include_path"; "ANSAK_STRING_HEADER"; "ANSAK_LIB_HEADER"; "ANSAK_SQLITE_HEADER"; "ANSAK_FOUND"; "ANSAK_INCLUDE";
      "_platform_ansak_lib"; "ANSAK_LIB_FOUND"; "ANSAK_LIB"] ->
    value (state_of V2 c3) y = value (state_of V ch) y).
  { intros y N. rewrite <- VK2 by (cbn in N |- *; tauto). apply value_eq; [reflexivity|]. apply LC. cbn in N |- *. tauto. }
  destruct (run_sqlite V2 c3 (header root "sqlite_exception.hxx") (directory (or_root loc)) split (if unix s then "libansakSqlite.a" else "ansakSqlite.lib"))
    as (c4 & E & QC & QG).
  { constructor; [now rewrite VK3 by away|now rewrite !VK3 by away|]. destruct split; [now rewrite VK3 by away|exact I]. }
  { rewrite VK3 by away. exact P2. }
  { now destruct (unix s). }
  { now destruct (unix s). }
  { rewrite VK3 by away. rewrite PI by (cbn; tauto). apply (sf_sqlite3 s vs env SF). }
  { intros y J. apply AV2. cbn in J |- *. tauto. }
  { intros y J. rewrite LC by (cbn in J |- *; intuition congruence). rewrite (proj2 (K2 y ltac:(intro N; cbn in N, J; intuition congruence))). apply AC. cbn in J |- *. tauto. }
  { rewrite LC by away. rewrite IC by discriminate. exact H3. }
  rewrite E. clear E.
  rewrite (run_parts env bef aft d call 1). change (take 1 (skip 1 (skip 1 rest5))) with incs_block.
  change (skip 1 (skip 1 (skip 1 rest5))) with note_block.
  set (inc := if standard (removelast (removelast p)) then None else Some (removelast (removelast p))).
  rewrite (run_incs V2 c4 inc).
  2:{ apply AV2. cbn. tauto. }
  2:{ rewrite QC by away. rewrite LC by away. rewrite II. unfold inc. now destruct (standard _). }
  2:{ unfold inc. intros q Q. destruct (standard _); [discriminate|]. inversion Q. now subst. }
  2:{ rewrite (value_eq V2 c3) by (reflexivity || apply QC; away). rewrite VK3 by away. rewrite PI by (cbn; tauto). apply (sf_isolate s vs env SF). }
  match goal with |- context [run_with _ _ _ _ _ note_block {| vars := _; cache := _; funs := _; up := _; incs := ?is; failed := _ |}] =>
    destruct (run_notes V2 c4 is false) as (V3 & E & NV) end.
  rewrite E. clear E.
  assert (VF : forall y is, y <> "_comp_found" -> y <> "_comp" ->
    value {| vars := V3; cache := c4; funs := the_funs; up := []; incs := is; failed := false |} y = value (state_of V2 c4) y).
  { intros y is Y1 Y2. unfold value. cbn. now rewrite NV. }
  eexists. split; [reflexivity|]. split; [reflexivity|].
  rewrite !VF by discriminate. cbn [string_lib include_path ansak_lib sqlite_lib by_generator included].
  split.
  { unfold value. cbn. rewrite AV2 by (cbn; tauto). rewrite QC by away. rewrite LC by away. exact IF'. }
  split.
  { rewrite (value_eq V2 c3) by (reflexivity || apply QC; away). rewrite VK3 by away. exact PL. }
  split.
  { unfold value. cbn. rewrite AV2 by (cbn; tauto). rewrite QC by away. rewrite LC by away. rewrite II. unfold directory. now destruct (standard _). }
  split.
  { rewrite component_lib. revert LG. unfold given_lib. destruct (lib_of _ _ _ _ _); rewrite !VF by discriminate;
      rewrite !(value_eq V2 c3 V2 c4) by (reflexivity || apply QC; away); auto. }
  split.
  { rewrite component_lib. revert QG. unfold given_lib. destruct (if sqlite3 s then _ else _); rewrite !VF by discriminate; auto. }
  split.
  { rewrite (value_eq V2 c3) by (reflexivity || apply QC; away). rewrite VK3 by away. exact PG. }
  unfold inc, directory. now destruct (standard _).
Qed.

End Rest.

(** * The whole *)

Lemma matches_reports : forall o p r, matches o p -> reports p r -> reports o r.
Proof.
  intros o p r M R.
  assert (G : forall a b f x l, alike a b -> given_lib b f x l -> given_lib a f x l).
  { intros a b f x l A H. unfold given_lib in *. now rewrite !(alike_value a b _ A). }
  destruct r as [| |f]; cbn in R |- *.
  - subst p. now destruct o.
  - destruct R as (st & -> & F & V). destruct o as [|a| |]; try contradiction. exists a. split; [reflexivity|].
    now rewrite (alike_value a st _ M), (al_failed _ _ M).
  - destruct R as (st & -> & F & V1 & V2 & V3 & V4 & V5 & V6 & V7). destruct o as [a| | |]; try contradiction. exists a. split; [reflexivity|].
    rewrite !(alike_value a st _ M), (al_failed _ _ M), (al_incs _ _ M). eauto 12.
Qed.

Lemma find_text_runs : forall s d vs env, stands_for s vs env -> ordinary s ->
  reports (run_text FindANSAK_cmake s d vs env) (find_ansak s d).
Proof.
  intros s d vs env SF OR. unfold run_text. destruct the_block_read as (b & R & B). rewrite R.
  eapply matches_reports; [apply strip_same, start_alike|]. rewrite B. clear b R B.
  change (Cmake.run env ?x ?y d 1 the_block) with (run_with env x y d (Cmake.run env x y d 0) the_block).
  rewrite (run_parts _ _ _ _ _ 10). change (take 10 the_block) with seg0. change (skip 10 the_block) with rest1.
  rewrite (run_seg0 s d vs env SF).
  rewrite (run_parts _ _ _ _ _ 1). change (take 1 rest1) with seg1. change (skip 1 rest1) with rest2.
  pose proof (run_seg1 s d vs env SF OR) as S1. unfold find_ansak.
  destruct (if unix s then unix_locator s d else windows_locator s d) as [loc|] eqn:L; [|now rewrite S1].
  destruct S1 as (st & S1 & [RV RC RO RF RU RI RX]). rewrite S1. clear S1.
  destruct st as [V ch F U I X]. cbn in RV, RC, RO, RF, RU, RI, RX. subst V F U I X.
  rewrite (run_parts _ _ _ _ _ 5). change (take 5 rest2) with seg2. change (skip 5 rest2) with rest3.
  assert (S2 : exists st, run_with env (fun k => earlier s (find_kind k)) (fun k => later s (find_kind k)) d
      (Cmake.run env (fun k => earlier s (find_kind k)) (fun k => later s (find_kind k)) d 0) seg2 (base s vs ch) = Went st /\ placed s vs loc st).
  { destruct loc as [p|].
    - destruct (locator_sited s d OR (Some p) L p eq_refl) as (x & -> & PX & LX).
      apply (run_some s d vs env SF OR); auto; destruct (unix s); try reflexivity; apply proper_word; cbn; tauto.
    - now apply (run_none s d vs env SF). }
  destruct S2 as (st & S2 & PL). unfold base in S2. rewrite S2.
  now apply (run_rest s d vs env SF OR).
Qed.
