(** FindANSAK.cmake. *)
From Coq Require Import ZArith List Bool String Ascii.
From Verif Require Import Model.Make Model.Unix Model.Nsis Model.Find Spec.Install Spec.Unix Spec.Find.
From Verif Require Import Proof.InstallFacts Proof.InstallDone Proof.InstallCase Proof.UnixDone Proof.NsisDone.
Import ListNotations.
Open Scope string_scope.
Open Scope list_scope.

Lemma there_file : forall d p, is_file d p = true <-> there d p.
Proof.
  intros d p. unfold is_file, there. destruct (look d p) as [[|data]|]; split; try discriminate; intro H; try (now exists data);
    try (destruct H; discriminate); reflexivity.
Qed.

Lemma first_app : forall d a b name, first d (a ++ b) name =
  match first d a name with Some p => Some p | None => first d b name end.
Proof. intros d a b name. induction a as [|x a IH]; cbn; [reflexivity|]. now destruct (is_file d (x ++ [name])). Qed.

Lemma first_some : forall d l name p, first d l name = Some p -> there d p /\ exists x, In x l /\ p = x ++ [name].
Proof.
  intros d l name p. induction l as [|x l IH]; cbn; [discriminate|]. destruct (is_file d (x ++ [name])) eqn:E; intro H.
  - injection H as <-. split; [now apply there_file|]. exists x. auto.
  - destruct (IH H) as (T & y & I & ->). split; [assumption|]. exists y. auto.
Qed.

Lemma first_none : forall d l name, first d l name = None <-> forall x, In x l -> ~ there d (x ++ [name]).
Proof.
  intros d l name. induction l as [|x l IH]; cbn; [split; [intros _ ? []|reflexivity]|].
  destruct (is_file d (x ++ [name])) eqn:E.
  - split; [discriminate|]. intro H. exfalso. apply (H x); [now left|]. now apply there_file.
  - rewrite IH. split; intro H; [intros y [<-|I]|].
    + intro T. apply there_file in T. congruence.
    + now apply H.
    + intros y I. apply H. now right.
Qed.

Lemma search_hint : forall s d k h name, clear s d k name -> there d (h ++ [name]) ->
  search s d k true [h] name = Some (h ++ [name]).
Proof.
  intros s d k h name C T. unfold search. rewrite first_app.
  assert (E : first d (earlier s k) name = None) by (apply first_none; exact C). rewrite E.
  cbn [app first]. apply there_file in T. now rewrite T.
Qed.

Lemma search_in : forall s d k def h name p, search s d k def h name = Some p -> there d p /\
  exists x, p = x ++ [name].
Proof.
  intros s d k def h name p H. apply first_some in H. destruct H as (T & x & _ & E). split; [assumption|now exists x].
Qed.

Lemma directory_app : forall p x, directory (p ++ [x]) = p.
Proof. intros. apply removelast_last. Qed.

Lemma name_app : forall p x, name (p ++ [x]) = x.
Proof. intros. apply last_last. Qed.

(** What is said of the headers once the root is known. *)
Lemma conclude_header : forall s d l sl root split, locate s (match l with Some p => p | None => [] end) = (sl, root, split) ->
  clear s d Header "string.hxx" -> there d (main_header root) ->
  exists f, conclude s d l = Found f /\ string_lib f = sl /\ includes f root.
Proof.
  intros s d l sl root split L C T. unfold conclude. rewrite L.
  assert (S : search s d Header true [root ++ ["include"; "ansak"]] "string.hxx" =
      Some ((root ++ ["include"; "ansak"]) ++ ["string.hxx"])).
  { apply search_hint; [assumption|]. rewrite <- app_assoc. exact T. }
  rewrite S, directory_app. eexists. split; [reflexivity|]. cbn [string_lib include_path]. split; [reflexivity|].
  change ["include"; "ansak"] with (["include"] ++ ["ansak"]). rewrite app_assoc, directory_app.
  unfold includes, standard. cbn [include_path].
  destruct (Make.same (root ++ ["include"]) ["usr"; "include"]) eqn:A;
    [apply same_true in A|]; [|destruct (Make.same (root ++ ["include"]) ["usr"; "local"; "include"]) eqn:B;
      [apply same_true in B|]]; cbn [orb].
  - apply (app_inj_tail root ["usr"]) in A. destruct A as (-> & _). split; [reflexivity|congruence].
  - apply (app_inj_tail root ["usr"; "local"]) in B. destruct B as (-> & _). split; [reflexivity|congruence].
  - split; [|reflexivity]. intros [-> | ->]; discriminate.
Qed.

(** * Unix *)

Theorem unix_found : forall s d r, unix s = true -> ansak_dir s = Some r ->
  there d (r ++ archive_file) -> there d (main_header r) ->
  clear s d Library archive -> clear s d Header "string.hxx" ->
  exists f, find_ansak s d = Found f /\ string_lib f = Exactly (r ++ archive_file) /\ includes f r.
Proof.
  intros s d r U A T H CL CH. unfold find_ansak. rewrite U. unfold unix_locator. rewrite A. unfold required.
  assert (S : search s d Library true [r ++ ["lib"]] "libansakString.a" = Some ((r ++ ["lib"]) ++ ["libansakString.a"])).
  { apply search_hint; [assumption|]. rewrite <- app_assoc. exact T. }
  rewrite S.
  destruct (conclude_header s d (Some ((r ++ ["lib"]) ++ ["libansakString.a"])) (Exactly (r ++ archive_file)) r None)
    as (f & F & L & I); [|assumption|assumption|].
  - unfold locate. rewrite !directory_app, name_app. cbn [String.eqb negb]. cbn.
    now rewrite <- app_assoc.
  - exists f. auto.
Qed.

Theorem unix_installed : forall sudo prefix here config d0 d s data,
  make_install sudo prefix here config d0 = (Returned tt, d) ->
  look d0 (here ++ ["interface"; "string.hxx"]) = Some (File data) ->
  unix s = true -> ansak_dir s = Some prefix ->
  clear s d Library archive -> clear s d Header "string.hxx" ->
  exists f, find_ansak s d = Found f /\ string_lib f = Exactly (prefix ++ archive_file) /\ includes f prefix.
Proof.
  intros sudo prefix here config d0 d s data M H U A CL CH.
  destruct (install_done_unix _ _ _ _ _ _ M) as ((c & _ & T) & K).
  apply unix_found; try assumption; [now exists c|].
  exists data. apply (K "string.hxx" data H); reflexivity.
Qed.

(** With ANSAK_DIR in the environment nothing is found, or by luck the header only. *)
Theorem unix_environment : forall s d r, unix s = true -> ansak_dir s = None -> env_ansak_dir s = Some r ->
  (forall f, find_ansak s d = Found f -> string_lib f = Exactly []) /\
  ((forall x, In x (earlier s Header ++ ["include"; "ansak"] :: later s Header) -> ~ there d (x ++ ["string.hxx"])) ->
   forall f, find_ansak s d <> Found f).
Proof.
  intros s d r U A E.
  assert (K : find_ansak s d = Fatal \/ find_ansak s d = conclude s d None).
  { unfold find_ansak. rewrite U. unfold unix_locator. rewrite A, E.
    destruct (required s d true [r ++ ["lib"]] "libansakString.a" None); auto. }
  split.
  - intros f F. destruct K as [K|K]; rewrite K in F; [discriminate|]. unfold conclude in F. cbn -[search component standard] in F.
    match type of F with match ?x with _ => _ end = _ => destruct x end; [|discriminate]. injection F as <-. reflexivity.
  - intros N f F. destruct K as [K|K]; rewrite K in F; [discriminate|]. unfold conclude in F. cbn -[search component standard] in F.
    match type of F with match ?x with _ => _ end = _ =>
      assert (Z : x = None) by (apply (proj2 (first_none d (earlier s Header ++ ["include"; "ansak"] :: later s Header) "string.hxx")); exact N);
      rewrite Z in F end. discriminate.
Qed.

(** * Windows *)

Lemma required_some : forall s d def h n p, required s d def h n (Some p) = Some (Some p).
Proof. reflexivity. Qed.

Lemma win_lib_some : forall s d n c p, find_win_lib s d n c (Some p) = Some (Some p).
Proof. intros s d n [c|] p; [|reflexivity]. unfold find_win_lib. now destruct (platform_hints s c). Qed.

(** The candidate looked at is the one chosen, and no other. *)
Lemma try_some : forall s d l p, try_all s d l (Some p) = Some (Some p).
Proof. intros s d l p. induction l as [|c l IH]; cbn [try_all]; [reflexivity|]. now rewrite win_lib_some. Qed.

Lemma try_chosen : forall s d r l, try_all s d (Some r :: l) None = find_win_lib s d library (Some r) None.
Proof.
  intros s d r l. cbn [try_all]. fold library.
  assert (Z : find_win_lib s d library (Some r) None = None \/
     exists p, find_win_lib s d library (Some r) None = Some (Some p)).
  { unfold find_win_lib. destruct (platform_hints s r) as [h|].
    - cbn [required]. destruct (search s d Library false h library) as [p|]; [|now left]. right. exists p. reflexivity.
    - cbn [required]. destruct (search s d Library false [r ++ ["lib"]] library) as [p|]; [|now left].
      right. exists p. reflexivity. }
  destruct Z as [E|(p & E)]; rewrite E; [reflexivity|apply try_some].
Qed.

Lemma try_next : forall s d l, try_all s d (None :: l) None = try_all s d l None.
Proof. reflexivity. Qed.

Lemma windows_chosen : forall s d r, unix s = false -> chosen s r ->
  windows_locator s d = find_win_lib s d library (Some r) None.
Proof.
  intros s d r U C. unfold windows_locator.
  destruct C as [r A|r A B|r A B _ P|r A B _ P Q|A B _ P Q]; rewrite ?A, ?B, ?P, ?Q, ?try_next; apply try_chosen.
Qed.

Lemma hints_in : forall (c : path) p l, (forall n, architecture p n <-> In n l) ->
  forall x, In x (map (fun a => c ++ ["lib"; a; "Debug"]) l) <-> exists n, architecture p n /\ x = c ++ ["lib"; n; "Debug"].
Proof.
  intros c p l A x. rewrite in_map_iff. split.
  - intros (n & <- & I). exists n. split; [now apply A|reflexivity].
  - intros (n & I & ->). exists n. split; [reflexivity|now apply A].
Qed.

Lemma platform_cases : forall s c,
  match platform_hints s c with
  | Some h => In (platform s) platforms /\ forall x, In x h <-> exists n, architecture (platform s) n /\ x = c ++ ["lib"; n; "Debug"]
  | None => ~ In (platform s) platforms
  end.
Proof.
  intros s c. unfold platform_hints.
  destruct (String.eqb_spec (platform s) "ARM") as [E|N1].
  { rewrite E. split; [now left|]. apply hints_in. intro n. split; [intro A; inversion A; now left|intros [<-|[]]; constructor]. }
  destruct (String.eqb_spec (platform s) "ARM64") as [E|N2].
  { rewrite E. split; [right; now left|]. apply hints_in. intro n. split; [intro A; inversion A; now left|intros [<-|[]]; constructor]. }
  destruct (String.eqb_spec (platform s) "Win32") as [E|N3].
  { rewrite E. split; [right; right; now left|]. apply hints_in. intro n. split; [intro A; inversion A; assumption|intro I; now constructor]. }
  destruct (String.eqb_spec (platform s) "x64") as [E|N4].
  { rewrite E. split; [right; right; right; now left|]. apply hints_in. intro n. split; [intro A; inversion A; assumption|intro I; now constructor]. }
  cbn. intuition congruence.
Qed.

(** The place the library is found at. *)
Lemma win_lib : forall s d r, match find_win_lib s d library (Some r) None with
  | None => (In (platform s) platforms -> forall n, architecture (platform s) n -> ~ there d (r ++ ["lib"; n; "Debug"; library])) /\
            (~ In (platform s) platforms -> ~ there d (r ++ ["lib"; library]))
  | Some None => False
  | Some (Some p) => there d p /\
      ((In (platform s) platforms /\ exists n, architecture (platform s) n /\ p = r ++ ["lib"; n; "Debug"; library]) \/
       (~ In (platform s) platforms /\ p = r ++ ["lib"; library]))
  end.
Proof.
  intros s d r. unfold find_win_lib. pose proof (platform_cases s r) as P. destruct (platform_hints s r) as [h|].
  - destruct P as (I & P). unfold required. destruct (search s d Library false h library) as [p|] eqn:S; unfold search in S.
    + apply first_some in S. destruct S as (T & x & X & ->). split; [assumption|]. left. split; [assumption|].
      apply P in X. destruct X as (n & A & ->). exists n. split; [assumption|]. now rewrite <- app_assoc.
    + split; [intros _ n A T|contradiction]. rewrite first_none in S. apply (S (r ++ ["lib"; n; "Debug"])).
      * apply P. now exists n.
      * now rewrite <- app_assoc.
  - unfold required. destruct (search s d Library false [r ++ ["lib"]] library) as [p|] eqn:S; unfold search in S.
    + apply first_some in S. destruct S as (T & x & [<-|[]] & ->). split; [assumption|]. right. split; [assumption|]. now rewrite <- app_assoc.
    + split; [contradiction|]. intros _ T. rewrite first_none in S. apply (S (r ++ ["lib"])); [now left|]. now rewrite <- app_assoc.
Qed.

Lemma arch_matches : forall s n, architecture (platform s) n -> platform_matches s n = true.
Proof.
  intros s n A. unfold platform_matches. remember (platform s) as p eqn:E. clear E.
  destruct A as [a I|a I| |]; cbn in I || idtac; try reflexivity; repeat (destruct I as [<-|I]; [reflexivity|]); destruct I.
Qed.

Lemma arch_not_lib : forall p n, architecture p n -> n <> "lib".
Proof.
  intros p n A. destruct A as [a I|a I| |]; try discriminate; cbn in I;
    repeat (destruct I as [<-|I]; [discriminate|]); destruct I.
Qed.

Lemma locate_3 : forall s r n, architecture (platform s) n ->
  locate s (r ++ ["lib"; n; "Debug"; library]) =
  if visual_studio s then (ByConfig (r ++ ["lib"; n]) library, r, Some (r ++ ["lib"; n]))
  else (Exactly (r ++ ["lib"; n; "Debug"; library]), r, None).
Proof.
  intros s r n A. unfold locate.
  assert (E : r ++ ["lib"; n; "Debug"; library] = (((r ++ ["lib"]) ++ [n]) ++ ["Debug"]) ++ [library]) by (now rewrite <- !app_assoc).
  assert (E' : r ++ ["lib"; n] = (r ++ ["lib"]) ++ [n]) by (now rewrite <- !app_assoc).
  rewrite E, E', !directory_app, !name_app. cbn [String.eqb negb]. cbn -[String.eqb].
  rewrite (proj2 (String.eqb_neq n "lib") (arch_not_lib _ _ A)), (arch_matches _ _ A). reflexivity.
Qed.

Lemma locate_1 : forall s r, locate s (r ++ ["lib"; library]) = (Exactly (r ++ ["lib"; library]), r, None).
Proof.
  intros s r. unfold locate.
  assert (E : r ++ ["lib"; library] = (r ++ ["lib"]) ++ [library]) by (now rewrite <- !app_assoc).
  rewrite E, !directory_app, !name_app. reflexivity.
Qed.

(** Nothing but the chosen directory counts. *)
Theorem windows_decisive : forall s d r, unix s = false -> chosen s r ->
  (find_ansak s d = Fatal <->
     (In (platform s) platforms -> forall n, architecture (platform s) n -> ~ there d (r ++ ["lib"; n; "Debug"; library])) /\
     (~ In (platform s) platforms -> ~ there d (r ++ ["lib"; library]))).
Proof.
  intros s d r U C. unfold find_ansak. rewrite U, (windows_chosen _ _ _ U C).
  pose proof (win_lib s d r) as W. destruct (find_win_lib s d library (Some r) None) as [[p|]|]; [|destruct W|].
  - split.
    + intro H. exfalso. unfold conclude in H. destruct (locate s p) as ((sl, root), split).
      destruct (search s d Header true [root ++ ["include"; "ansak"]] "string.hxx"); discriminate.
    + intros (A & B). exfalso. destruct W as (T & [(I & n & N & ->)|(I & ->)]); [now apply (A I n)|now apply B].
  - split; [intros _; assumption|reflexivity].
Qed.

(** What is found, is in the chosen directory. *)
Theorem windows_right : forall s d r, unix s = false -> chosen s r ->
  clear s d Header "string.hxx" -> there d (main_header r) -> find_ansak s d <> Fatal ->
  exists f, find_ansak s d = Found f /\ includes f r /\
    ((exists n, architecture (platform s) n /\ there d (r ++ ["lib"; n; "Debug"; library]) /\
        string_lib f = if visual_studio s then ByConfig (r ++ ["lib"; n]) library else Exactly (r ++ ["lib"; n; "Debug"; library])) \/
     (~ In (platform s) platforms /\ there d (r ++ ["lib"; library]) /\ string_lib f = Exactly (r ++ ["lib"; library]))).
Proof.
  intros s d r U C CH H N. unfold find_ansak in *. rewrite U, (windows_chosen _ _ _ U C) in *.
  pose proof (win_lib s d r) as W. destruct (find_win_lib s d library (Some r) None) as [[p|]|]; [|destruct W|congruence].
  destruct W as (T & [(I & n & A & ->)|(I & ->)]).
  - destruct (visual_studio s) eqn:V.
    + destruct (conclude_header s d (Some (r ++ ["lib"; n; "Debug"; library])) (ByConfig (r ++ ["lib"; n]) library) r (Some (r ++ ["lib"; n])))
        as (f & F & L & J); [rewrite (locate_3 _ _ _ A), V; reflexivity|assumption|assumption|].
      exists f. split; [assumption|]. split; [assumption|]. left. exists n. auto.
    + destruct (conclude_header s d (Some (r ++ ["lib"; n; "Debug"; library])) (Exactly (r ++ ["lib"; n; "Debug"; library])) r None)
        as (f & F & L & J); [rewrite (locate_3 _ _ _ A), V; reflexivity|assumption|assumption|].
      exists f. split; [assumption|]. split; [assumption|]. left. exists n. auto.
  - destruct (conclude_header s d (Some (r ++ ["lib"; library])) (Exactly (r ++ ["lib"; library])) r None)
      as (f & F & L & J); [apply locate_1|assumption|assumption|].
    exists f. split; [assumption|]. split; [assumption|]. right. auto.
Qed.

(** The names make.py uses come first. *)
Lemma preferred : forall s d (r : path), In (platform s) architectures -> there d (r ++ ["lib"; platform s; "Debug"; library]) ->
  find_win_lib s d library (Some r) None = Some (Some (r ++ ["lib"; platform s; "Debug"; library])).
Proof.
  intros s d r I T.
  assert (T' : is_file d ((r ++ ["lib"; platform s; "Debug"]) ++ [library]) = true) by (rewrite <- app_assoc; now apply there_file).
  assert (E' : (r ++ ["lib"; platform s; "Debug"]) ++ [library] = r ++ ["lib"; platform s; "Debug"; library]) by (now rewrite <- app_assoc).
  unfold find_win_lib, platform_hints.
  destruct I as [E|[E|[]]]; rewrite <- E in *; cbn -[is_file app library]; rewrite T', E'; reflexivity.
Qed.

Theorem windows_found : forall s d r, unix s = false -> chosen s r -> In (platform s) architectures -> visual_studio s = true ->
  there d (r ++ ["lib"; platform s; "Debug"; library]) -> there d (main_header r) -> clear s d Header "string.hxx" ->
  exists f, find_ansak s d = Found f /\ string_lib f = ByConfig (r ++ ["lib"; platform s]) library /\ includes f r.
Proof.
  intros s d r U C I V T H CH. unfold find_ansak. rewrite U, (windows_chosen _ _ _ U C), (preferred s d r I T).
  assert (A : architecture (platform s) (platform s)) by (destruct I as [<-|[<-|[]]]; constructor; now left).
  apply (conclude_header s d (Some (r ++ ["lib"; platform s; "Debug"; library])) _ r (Some (r ++ ["lib"; platform s]))); try assumption.
  now rewrite (locate_3 _ _ _ A), V.
Qed.

Theorem installer_found : forall here d0 d1 d2 pkg inst exe d d' s, gather here d0 = (Returned tt, d1) ->
  (forall p, ours (here ++ ["build"; "nsis"]) p -> look d2 p = look d1 p) ->
  pack (here ++ ["build"; "nsis"]) d2 = Some pkg ->
  install_section pkg inst exe d = (Returned tt, d') ->
  unix s = false -> chosen s inst -> In (platform s) architectures -> visual_studio s = true -> clear s d' Header "string.hxx" ->
  exists f, find_ansak s d' = Found f /\ includes f inst /\
    forall c, In c configurations -> exists data,
      look d0 (here ++ built (platform s) c library) = Some (File data) /\
      look d' (expand (string_lib f) c) = Some (File data).
Proof.
  intros here d0 d1 d2 pkg inst exe d d' s G A P I U C PL V CH.
  assert (K : forall c, In c configurations -> exists data,
      look d0 (here ++ built (platform s) c library) = Some (File data) /\
      look d' (inst ++ ["lib"; platform s; c; library]) = Some (File data)).
  { intros c X. destruct (packaged _ _ _ _ _ _ _ _ _ _ _ G A P I (belongs_library _ _ PL X)) as (data & L & [O|(a & _ & E & _)]).
    - exists data. auto.
    - discriminate E. }
  destruct (windows_found s d' inst) as (f & F & L & J); try assumption.
  - destruct (K "Debug") as (data & _ & E); [cbn; tauto|]. now exists data.
  - destruct (packaged _ _ _ _ _ _ _ _ _ _ _ G A P I (belongs_header "string.hxx" (or_introl eq_refl))) as (data & E & _).
    now exists data.
  - exists f. split; [assumption|]. split; [assumption|]. intros c X. destruct (K c X) as (data & O & E). exists data.
    split; [assumption|]. rewrite L. cbn [expand]. now rewrite <- app_assoc.
Qed.

Theorem make_py_found : forall prefix here d d' s, install prefix here d = (Returned tt, d') ->
  unix s = false -> chosen s prefix -> In (platform s) architectures -> visual_studio s = true -> clear s d' Header "string.hxx" ->
  exists f, find_ansak s d' = Found f /\ includes f prefix /\
    forall c, In c configurations -> (platform s <> "Win32" \/ c <> "MinSizeRel") -> exists data,
      look d (here ++ built (platform s) c library) = Some (File data) /\
      look d' (expand (string_lib f) c) = Some (File data).
Proof.
  intros prefix here d d' s I U C PL V CH.
  assert (K : forall c, In c configurations -> (platform s <> "Win32" \/ c <> "MinSizeRel") -> exists data,
      look d (here ++ built (platform s) c library) = Some (File data) /\
      look d' (prefix ++ ["lib"; platform s; c; library]) = Some (File data)).
  { intros c X Y. destruct (installed_right _ _ _ _ _ _ I (belongs_library _ _ PL X)) as (data & L & O).
    - intro E. unfold installed in E. injection E as E1 E2. destruct Y; congruence.
    - exists data. auto. }
  destruct (windows_found s d' prefix) as (f & F & L & J); try assumption.
  - destruct (K "Debug") as (data & _ & E); [cbn; tauto|right; discriminate|]. now exists data.
  - destruct (installed_right _ _ _ _ _ _ I (belongs_header "string.hxx" (or_introl eq_refl))) as (data & _ & E); [discriminate|].
    now exists data.
  - exists f. split; [assumption|]. split; [assumption|]. intros c X Y. destruct (K c X Y) as (data & O & E). exists data.
    split; [assumption|]. rewrite L. cbn [expand]. now rewrite <- app_assoc.
Qed.

(** * What is reported *)

Lemma component_there : forall s d b root dir split h f fc p, component s d b root dir split h f fc = Some (Exactly p) -> there d p.
Proof.
  intros s d b root dir split h f fc p H. unfold component in H. destruct b; [|discriminate].
  destruct (search s d Header true [root ++ ["include"; "ansak"]] h); [|discriminate].
  destruct (search s d Library true [dir] f) as [q|] eqn:S; [|discriminate].
  destruct split; [discriminate|]. injection H as <-. now apply search_in in S.
Qed.

Lemma locator_there : forall s d, match (if unix s then unix_locator s d else windows_locator s d) with
  | None => True
  | Some None => unix s = true /\ ansak_dir s = None /\ env_ansak_dir s <> None
  | Some (Some p) => there d p
  end.
Proof.
  intros s d. destruct (unix s) eqn:U.
  - unfold unix_locator, required.
    destruct (ansak_dir s) as [r|]; [|destruct (env_ansak_dir s) as [r|]];
      match goal with |- context [search s d Library true ?h ?n] => destruct (search s d Library true h n) as [p|] eqn:S end;
      try exact I; try (now apply search_in in S).
  - assert (C : exists r, chosen s r).
    { destruct (ansak_dir s) as [r|] eqn:A; [exists r; now constructor|].
      destruct (env_ansak_dir s) as [r|] eqn:B; [exists r; now apply by_environment|].
      destruct (program_data s) as [r|] eqn:P; [exists r; now apply by_program_data|].
      destruct (env_program_data s) as [r|] eqn:Q; [exists r; now apply by_env_program_data|].
      eexists. now apply by_default. }
    destruct C as (r & C). rewrite (windows_chosen _ _ _ U C). pose proof (win_lib s d r) as W.
    destruct (find_win_lib s d library (Some r) None) as [[p|]|]; [apply W|destruct W|exact I].
Qed.

Theorem reported : forall s d f, find_ansak s d = Found f ->
  (exists x, there d (x ++ ["string.hxx"])) /\
  ((unix s = true -> ansak_dir s = None -> env_ansak_dir s = None) ->
     forall p, string_lib f = Exactly p -> there d p) /\
  (forall p, ansak_lib f = Some (Exactly p) -> there d p) /\
  (forall p, sqlite_lib f = Some (Exactly p) -> there d p /\ sqlite3 s = true) /\
  (forall x, In x (included f) -> x = "ANSAK_INCLUDE").
Proof.
  intros s d f H. unfold find_ansak in H. pose proof (locator_there s d) as L.
  destruct (if unix s then unix_locator s d else windows_locator s d) as [loc|]; [|discriminate].
  unfold conclude in H. destruct (locate s (match loc with Some p => p | None => [] end)) as ((sl, root), split) eqn:K.
  destruct (search s d Header true [root ++ ["include"; "ansak"]] "string.hxx") as [h|] eqn:S; [|discriminate].
  injection H as <-. cbn [string_lib ansak_lib sqlite_lib included].
  split; [apply search_in in S; destruct S as (T & x & ->); now exists x|].
  split; [|split; [|split]].
  - intros E p ->. destruct loc as [q|].
    + assert (Q : p = q).
      { unfold locate in K. destruct (negb (String.eqb (name (directory q)) "Debug")); [now injection K as <- _ _|].
        destruct (visual_studio s); [discriminate K|now injection K as <- _ _]. }
      now subst q.
    + destruct L as (U & A & B). now elim B; auto.
  - intros p E. exact (component_there s d true _ _ _ _ _ _ _ E).
  - intros p E. split; [now apply component_there in E|]. destruct (sqlite3 s); [reflexivity|discriminate].
  - intros x. destruct (if standard (directory (directory h)) then None else Some (directory (directory h))); [|intros []].
    destruct (isolate s); [intros []|]. intros [<-|[]]. reflexivity.
Qed.

(** ANSAK_NO_GENERATOR_LIBS *)
Definition with_no_generator_libs (b : bool) (s : settings) : settings :=
  {| unix := unix s; platform := platform s; generator := generator s; ansak_dir := ansak_dir s; env_ansak_dir := env_ansak_dir s;
     program_data := program_data s; env_program_data := env_program_data s; isolate := isolate s; sqlite3 := sqlite3 s;
     no_generator_libs := b; earlier := earlier s; later := later s |}.

Theorem no_effect : forall b s d f, find_ansak s d = Found f ->
  exists f', find_ansak (with_no_generator_libs b s) d = Found f' /\ string_lib f' = string_lib f /\
    ansak_lib f' = ansak_lib f /\ sqlite_lib f' = sqlite_lib f.
Proof.
  intros b s d f H. unfold find_ansak in *.
  change (if unix (with_no_generator_libs b s) then unix_locator (with_no_generator_libs b s) d else windows_locator (with_no_generator_libs b s) d)
    with (if unix s then unix_locator s d else windows_locator s d).
  destruct (if unix s then unix_locator s d else windows_locator s d) as [loc|]; [|discriminate].
  unfold conclude in *. change (locate (with_no_generator_libs b s)) with (locate s).
  destruct (locate s (match loc with Some p => p | None => [] end)) as ((sl, root), split).
  change (search (with_no_generator_libs b s)) with (search s).
  destruct (search s d Header true [root ++ ["include"; "ansak"]] "string.hxx") as [h|]; [|discriminate].
  injection H as <-. eexists. split; [reflexivity|]. repeat split.
Qed.
