(** What configure makes of its options, and what make reads. *)
From Coq Require Import ZArith List Bool String Ascii.
From Verif Require Import Model.Configure Spec.Configure.
Import ListNotations.
Open Scope string_scope.
Open Scope list_scope.

(** * Options *)

Lemma options_spelt : forall is v, Forall proper is ->
  options (flat_map spelt is) v =
  Go {| prefix := given the_prefix is (prefix v);
        compiler := given the_compiler is (compiler v);
        unicode_version := given the_version is (unicode_version v) |}.
Proof.
  induction is as [|i is IH]; intros v F; [now destruct v|].
  apply Forall_cons_iff in F. destruct F as (P & F).
  destruct i as [x|x|x|long]; cbn [flat_map spelt app options]; cbn [proper] in P.
  1-3: cbn [String.eqb Ascii.eqb Bool.eqb orb]; apply String.eqb_neq in P; rewrite P; now rewrite IH.
  destruct long; cbn [String.eqb Ascii.eqb Bool.eqb orb]; now rewrite IH.
Qed.

Lemma options_go : forall args v v', options args v = Go v' -> exists is, Forall proper is /\ args = flat_map spelt is.
Proof.
  assert (K : forall n args v v', List.length args <= n -> options args v = Go v' ->
    exists is, Forall proper is /\ args = flat_map spelt is).
  { induction n as [|n IH]; intros args v v' L H; destruct args as [|a rest];
      try (exists []; split; [constructor|reflexivity]); [cbn in L; inversion L|].
    cbn [options] in H. cbn in L. apply le_S_n in L.
    assert (X : forall y, a = "--prefix" \/ a = "--compiler" \/ a = "--unicode-version" ->
      forall (mk : string -> values), (match rest with [] => Usage 1 | x :: rest => if String.eqb x "" then Usage 1 else options rest (mk x) end) = Go y ->
      exists is, Forall proper is /\ a :: rest = flat_map spelt is).
    { intros y A mk E. destruct rest as [|x rest]; [discriminate|].
      destruct (String.eqb x "") eqn:N; [discriminate|]. apply String.eqb_neq in N.
      cbn in L. destruct (IH rest _ _ (le_S_n _ _ (le_S _ _ L)) E) as (is & F & ->).
      destruct A as [->|[->| ->]]; [exists (Prefix x :: is)|exists (Compiler x :: is)|exists (Version x :: is)];
        (split; [constructor; assumption|reflexivity]). }
    destruct (String.eqb a "-h" || String.eqb a "--help"); [discriminate|].
    destruct (String.eqb a "--prefix") eqn:E1.
    { apply String.eqb_eq in E1. apply (X v' (or_introl E1) (fun x => {| prefix := x; compiler := compiler v; unicode_version := unicode_version v |}) H). }
    destruct (String.eqb a "--compiler") eqn:E2.
    { apply String.eqb_eq in E2. apply (X v' (or_intror (or_introl E2)) (fun x => {| prefix := prefix v; compiler := x; unicode_version := unicode_version v |}) H). }
    destruct (String.eqb a "--unicode-version") eqn:E3.
    { apply String.eqb_eq in E3. apply (X v' (or_intror (or_intror E3)) (fun x => {| prefix := prefix v; compiler := compiler v; unicode_version := x |}) H). }
    destruct (String.eqb a "-v" || String.eqb a "--verbose") eqn:E4; [|discriminate].
    destruct (IH rest _ _ L H) as (is & F & ->).
    apply orb_true_iff in E4. destruct E4 as [E4|E4]; apply String.eqb_eq in E4; subst a.
    - exists (Verbose false :: is). split; [now constructor|reflexivity].
    - exists (Verbose true :: is). split; [now constructor|reflexivity]. }
  intros args v v' H. apply (K (List.length args) args v v' (le_n _) H).
Qed.

Lemma options_help : forall is rest v h, Forall proper is -> h = "-h" \/ h = "--help" ->
  options (flat_map spelt is ++ h :: rest) v = Usage 0.
Proof.
  induction is as [|i is IH]; intros rest v h F H.
  - destruct H as [->| ->]; reflexivity.
  - apply Forall_cons_iff in F. destruct F as (P & F).
    destruct i as [x|x|x|long]; cbn [flat_map spelt app options]; cbn [proper] in P.
    1-3: cbn [String.eqb Ascii.eqb Bool.eqb orb]; apply String.eqb_neq in P; rewrite P; now rewrite IH.
    destruct long; cbn [String.eqb Ascii.eqb Bool.eqb orb]; now rewrite IH.
Qed.

Definition or_default (get : item -> option string) (is : list item) (env default : string) : string :=
  or_else (given get is env) default.

Theorem settled : forall w is, has_cmake w = true -> Forall proper is ->
  settle w (flat_map spelt is) =
  Go {| prefix := or_else (given the_prefix is (env_prefix w)) (def_prefix w);
        compiler := or_else (given the_compiler is (env_compiler w)) (def_cxx w);
        unicode_version := or_else (given the_version is (env_version w)) def_unicode |}.
Proof. intros w is C F. unfold settle. rewrite options_spelt by assumption. now rewrite C. Qed.

Theorem settled_only : forall w args v, settle w args = Go v ->
  has_cmake w = true /\ exists is, Forall proper is /\ args = flat_map spelt is.
Proof.
  intros w args v H. unfold settle in H.
  destruct (options args _) as [c|v'] eqn:E; [discriminate|].
  destruct (has_cmake w); [|discriminate]. split; [reflexivity|]. eapply options_go. eassumption.
Qed.

Lemma given_proper : forall get is d, Forall proper is ->
  (forall i x, get i = Some x -> i = Prefix x \/ i = Compiler x \/ i = Version x) ->
  d <> "" -> given get is d <> "".
Proof.
  intros get. unfold given. induction is as [|i is IH]; intros d F G N; [assumption|].
  apply Forall_cons_iff in F. destruct F as (P & F). cbn [fold_left].
  destruct (get i) as [x|] eqn:E; apply IH; try assumption.
  destruct (G i x E) as [->|[->| ->]]; exact P.
Qed.

(** With nothing of that name in the environment, what is not given is the default. *)
Theorem settled_clean : forall w is, has_cmake w = true -> Forall proper is ->
  env_prefix w = "" -> env_compiler w = "" -> env_version w = "" ->
  settle w (flat_map spelt is) =
  Go {| prefix := given the_prefix is (or_else "" (def_prefix w));
        compiler := given the_compiler is (def_cxx w);
        unicode_version := given the_version is "16" |}.
Proof.
  intros w is C F E1 E2 E3. rewrite settled by assumption. rewrite E1, E2, E3.
  assert (K : forall get d, (forall i x, get i = Some x -> i = Prefix x \/ i = Compiler x \/ i = Version x) ->
    or_else (given get is "") d = given get is d).
  { intros get d G. clear E1 E2 E3 C. revert F. unfold given. induction is as [|i l IH] using rev_ind; intros F; [reflexivity|].
    rewrite !fold_left_app. cbn [fold_left]. apply Forall_app in F. destruct F as (F & P).
    apply Forall_cons_iff in P. destruct P as (P & _).
    destruct (get i) as [x|] eqn:E; [|now apply IH].
    unfold or_else. destruct (String.eqb x "") eqn:N; [|reflexivity]. apply String.eqb_eq in N. subst x.
    destruct (G i "" E) as [->|[->| ->]]; now exfalso; apply P. }
  f_equal. f_equal; rewrite K; try reflexivity; intros [y|y|y|y] x H; cbn in H; try discriminate; injection H as ->; auto.
Qed.

(** * sudo *)

Lemma upto_nil : forall s, upto "/" s = "" <-> s = "" \/ exists r, s = String "/" r.
Proof.
  intros [|c s]; cbn; [tauto|]. destruct (Ascii.eqb c "/") eqn:E.
  - apply Ascii.eqb_eq in E. subst c. split; [right; eauto|reflexivity].
  - split; [discriminate|]. intros [H|(r & H)]; [discriminate|]. injection H as -> _. discriminate.
Qed.

(** A value without blanks is one field. *)
Definition no_blank (s : string) : Prop := forall n c, String.get n s = Some c -> blank c = false.

Lemma no_blank_tail : forall c s, no_blank (String c s) -> blank c = false /\ no_blank s.
Proof. intros c s H. split; [apply (H 0 c eq_refl)|]. intros n d E. apply (H (S n) d E). Qed.

Lemma fields_one : forall s, s <> "" -> no_blank s -> fields s = [s].
Proof.
  induction s as [|c s IH]; intros N B; [contradiction|].
  apply no_blank_tail in B. destruct B as (B1 & B2). cbn [fields]. rewrite B1.
  destruct s as [|c' s']; [reflexivity|]. pose proof (no_blank_tail _ _ B2) as (B3 & _). rewrite B3.
  rewrite IH; [reflexivity|discriminate|assumption].
Qed.

Lemma echo_plain : forall s, no_blank s -> echo (fields s) = s.
Proof.
  intros [|c s] B; [reflexivity|]. rewrite fields_one; [reflexivity|discriminate|assumption].
Qed.

Lemma wants_sudo_exact : forall w p, no_blank p ->
  (wants_sudo w p = true <->
   system_of w <> Windows /\ (p = "" \/ exists r, p = String "/" r) /\ cut2 p <> "0" /\
   ((system_of w = Darwin /\ cut2 p = "Applications") \/ env_second w = "usr" \/ p <> env_home w)).
Proof.
  intros w p B. unfold wants_sudo. rewrite echo_plain by assumption.
  rewrite !andb_true_iff, !orb_true_iff, !andb_true_iff, !negb_true_iff, !String.eqb_neq, !String.eqb_eq.
  unfold cut1. rewrite upto_nil. unfold sudo_if_priv, apple.
  destruct (system_of w); intuition congruence.
Qed.

Lemma upto_app : forall a b, has "/" a = false -> upto "/" (append a (String "/" b)) = a.
Proof.
  induction a as [|c a IH]; intros b H; [reflexivity|]. cbn [has] in H. apply orb_false_iff in H. destruct H as (H1 & H2).
  cbn [append upto]. rewrite H1. now rewrite IH.
Qed.

Lemma within_cut : forall name p, has "/" name = false -> within (String "/" name) p -> cut2 p = name.
Proof.
  intros name p N [->|(s & ->)]; unfold cut2; cbn [has append behind].
  - cbn. clear -N. induction name as [|c n IH]; [reflexivity|]. cbn [has] in N. apply orb_false_iff in N. destruct N as (N1 & N2).
    cbn. rewrite N1. now rewrite IH.
  - cbn. now apply upto_app.
Qed.

(** Where privileges are needed, sudo is asked for, unless that is where the user is at home. *)
Theorem privileged_sudo : forall w p, no_blank p -> privileged w p -> p <> env_home w -> wants_sudo w p = true.
Proof.
  intros w p B (S & P) H. apply wants_sudo_exact; [assumption|]. split; [assumption|].
  assert (C : (exists r, p = String "/" r) /\ (cut2 p = "usr" \/ cut2 p = "Applications")).
  { destruct P as [P|P].
    - split; [destruct P as [->|(s & ->)]; eexists; reflexivity|]. left. now apply within_cut.
    - split; [destruct P as [->|(s & ->)]; eexists; reflexivity|]. right. now apply within_cut. }
  destruct C as (C1 & C2). split; [now right|]. split; [destruct C2 as [C2|C2]; rewrite C2; discriminate|auto].
Qed.

(** * config.make *)

Definition keys : list string :=
  ["SUDO"; "PREFIX"; "CXX"; "CONFIG"; "GENERATOR"; "UNICODE_VERSION"; "BUILDS_DEB"; "BUILDS_RPM"; "BUILDS_ARCH"].

Lemma defines_line : forall k k' X, In k keys -> In k' keys ->
  defines k' (append k (append " = " X)) = if String.eqb k k' then Some (skip (upto "#" X)) else None.
Proof.
  intros k k' X I I'. cbn in I, I'.
  repeat (destruct I as [<-|I]; [repeat (destruct I' as [<-|I']; [reflexivity|]); destruct I'|]). destruct I.
Qed.

Lemma defines_empty : forall k k', In k keys -> In k' keys ->
  defines k' (append k " =") = if String.eqb k k' then Some "" else None.
Proof.
  intros k k' I I'. cbn in I, I'.
  repeat (destruct I as [<-|I]; [repeat (destruct I' as [<-|I']; [reflexivity|]); destruct I'|]). destruct I.
Qed.

Lemma fields_first : forall s f l, fields s = f :: l -> exists c r, f = String c r /\ blank c = false.
Proof.
  induction s as [|c s IH]; intros f l H; [discriminate|]. cbn [fields] in H.
  destruct (blank c) eqn:B; [now apply (IH f l)|].
  destruct s as [|c' s']; [injection H as <- _; eauto|].
  destruct (blank c'); [injection H as <- _; eauto|].
  destruct (fields (String c' s')) as [|g l']; injection H as <- _; eauto.
Qed.

Lemma skip_same : forall c r, blank c = false -> skip (String c r) = String c r.
Proof. intros c r B. cbn. now rewrite B. Qed.

Lemma append_assoc : forall a b c, append (append a b) c = append a (append b c).
Proof. induction a as [|x a IH]; intros; [reflexivity|]. cbn. now rewrite IH. Qed.

Lemma concat_cons : forall f g l, String.concat " " (f :: g :: l) = append f (append " " (String.concat " " (g :: l))).
Proof. reflexivity. Qed.

Lemma defines_of : forall k k' s, In k keys -> In k' keys ->
  defines k' (line k s) = if String.eqb k k' then Some (upto "#" (echo (fields s))) else None.
Proof.
  intros k k' s I I'. unfold line, echo. destruct (fields s) as [|f l] eqn:F.
  - cbn [app]. rewrite concat_cons. cbn [String.concat]. change (append " " "=") with " =". now rewrite defines_empty.
  - cbn [app]. rewrite !concat_cons. change (append " " (append "=" (append " " (String.concat " " (f :: l)))))
      with (append " = " (String.concat " " (f :: l))).
    rewrite defines_line by assumption. destruct (String.eqb k k'); [|reflexivity]. f_equal.
    destruct (fields_first _ _ _ F) as (c & r & -> & B).
    destruct l as [|g l].
    + cbn [String.concat upto]. destruct (Ascii.eqb c "#"); [reflexivity|now apply skip_same].
    + rewrite concat_cons. cbn [append upto]. destruct (Ascii.eqb c "#"); [reflexivity|now apply skip_same].
Qed.

Lemma value_in : forall (kvs : list (string * string)) k s, NoDup (map fst kvs) -> incl (map fst kvs) keys -> In (k, s) kvs ->
  value_of k (map (fun e => line (fst e) (snd e)) kvs) = upto "#" (echo (fields s)).
Proof.
  induction kvs as [|(k1, s1) kvs IH]; intros k s N I H; [destruct H|].
  cbn [map fst] in N, I. apply NoDup_cons_iff in N. destruct N as (N1 & N2).
  assert (I1 : In k1 keys) by (apply I; now left).
  assert (I2 : incl (map fst kvs) keys) by (intros x X; apply I; now right).
  assert (Q : forall k', In k' keys -> existsb (fun l => match defines k' l with Some _ => true | None => false end)
      (map (fun e => line (fst e) (snd e)) kvs) = true <-> In k' (map fst kvs)).
  { intros k' K'. rewrite existsb_exists. split.
    - intros (l & L1 & L2). apply in_map_iff in L1. destruct L1 as ((k2, s2) & <- & L1). cbn [fst snd] in L2.
      apply (in_map fst) in L1. cbn [fst] in L1.
      rewrite defines_of in L2 by auto. destruct (String.eqb k2 k') eqn:E; [|discriminate].
      apply String.eqb_eq in E. now subst.
    - intro L. apply in_map_iff in L. destruct L as ((k2, s2) & E & L). cbn [fst] in E. subst k2.
      exists (line k' s2). split; [apply in_map_iff; now exists (k', s2)|].
      rewrite defines_of by auto. now rewrite String.eqb_refl. }
  cbn [map value_of fst snd]. destruct H as [H|H].
  - injection H as -> ->. destruct (existsb _ _) eqn:E; [apply Q in E; [contradiction|assumption]|].
    rewrite defines_of by auto. now rewrite String.eqb_refl.
  - assert (J : In k (map fst kvs)) by (apply (in_map fst) in H; assumption).
    pose proof (proj2 (Q k (I2 k J)) J) as E. rewrite E. now apply IH.
Qed.

Definition table (w : surroundings) (v : values) : list (string * string) :=
  [("SUDO", if wants_sudo w (prefix v) then "sudo" else "");
   ("PREFIX", prefix v); ("CXX", compiler v); ("CONFIG", config_of w); ("GENERATOR", generator_of w);
   ("UNICODE_VERSION", unicode_version v); ("BUILDS_DEB", builds w (has_dpkg w));
   ("BUILDS_RPM", builds w (has_rpm w)); ("BUILDS_ARCH", builds w (has_debtap w))].

Lemma table_lines : forall w v, config_make w v = map (fun e => line (fst e) (snd e)) (table w v).
Proof. reflexivity. Qed.

Lemma table_keys : forall w v, map fst (table w v) = keys.
Proof. reflexivity. Qed.

Lemma keys_nodup : NoDup keys.
Proof. repeat constructor; cbn; intuition discriminate. Qed.

Lemma reads : forall w v k s, In (k, s) (table w v) -> value_of k (config_make w v) = upto "#" (echo (fields s)).
Proof.
  intros w v k s I. rewrite table_lines. apply value_in; [|now intros x|assumption].
  rewrite table_keys. exact keys_nodup.
Qed.

Theorem make_reads : forall w v,
  let read k := value_of k (config_make w v) in
  let shown s := upto "#" (echo (fields s)) in
  read "SUDO" = (if wants_sudo w (prefix v) then "sudo" else "") /\
  read "PREFIX" = shown (prefix v) /\ read "CXX" = shown (compiler v) /\
  read "UNICODE_VERSION" = shown (unicode_version v) /\
  read "CONFIG" = config_of w /\ read "GENERATOR" = generator_of w /\
  read "BUILDS_DEB" = builds w (has_dpkg w) /\ read "BUILDS_RPM" = builds w (has_rpm w) /\
  read "BUILDS_ARCH" = builds w (has_debtap w).
Proof.
  intros w v read shown. subst read shown. cbv beta.
  assert (B : forall b, upto "#" (echo (fields (builds w b))) = builds w b).
  { intro b. unfold builds. destruct (system_of w), b; reflexivity. }
  repeat apply conj; (erewrite reads by (unfold table; cbn [In]; intuition reflexivity)); auto.
  - now destruct (wants_sudo w (prefix v)).
  - unfold config_of. now destruct (apple w).
  - unfold generator_of. now destruct (apple w).
Qed.

Lemma upto_none : forall s, (forall n c, String.get n s = Some c -> c <> "#"%char) -> upto "#" s = s.
Proof.
  induction s as [|c s IH]; intro H; [reflexivity|]. cbn [upto].
  destruct (Ascii.eqb c "#") eqn:E.
  - apply Ascii.eqb_eq in E. exfalso. now apply (H 0 c eq_refl).
  - rewrite IH; [reflexivity|]. intros n d K. apply (H (S n) d K).
Qed.

Lemma shown_word : forall s, word s -> upto "#" (echo (fields s)) = s.
Proof.
  intros s W. rewrite echo_plain.
  - apply upto_none. intros n c E. now apply (W n c E).
  - intros n c E. now apply (W n c E).
Qed.

Lemma fields_step : forall x t, x <> "" -> no_blank x -> fields (append x (String " " t)) = x :: fields t.
Proof.
  induction x as [|c x IH]; intros t N B; [contradiction|].
  apply no_blank_tail in B. destruct B as (B1 & B2). cbn [append fields]. rewrite B1.
  destruct x as [|c' x'].
  - reflexivity.
  - pose proof (no_blank_tail _ _ B2) as (B3 & _). cbn [append]. rewrite B3.
    change (String c' (append x' (String " " t))) with (append (String c' x') (String " " t)).
    now rewrite IH.
Qed.

Lemma fields_concat : forall ws, Forall (fun x => x <> "" /\ no_blank x) ws -> fields (String.concat " " ws) = ws.
Proof.
  induction ws as [|x ws IH]; intro F; [reflexivity|].
  apply Forall_cons_iff in F. destruct F as ((N & B) & F). destruct ws as [|y ws].
  - now apply fields_one.
  - rewrite concat_cons. cbn [append]. rewrite fields_step by assumption. now rewrite IH.
Qed.

Lemma upto_append : forall a b, upto "#" a = a -> upto "#" b = b -> upto "#" (append a b) = append a b.
Proof.
  induction a as [|c a IH]; intros b H K; [assumption|]. cbn [append upto] in *.
  destruct (Ascii.eqb c "#"); [discriminate|]. injection H as H. now rewrite IH.
Qed.

Lemma shown_neat : forall s, neat s -> upto "#" (echo (fields s)) = s.
Proof.
  intros s (ws & F & ->). unfold echo. rewrite fields_concat.
  - induction ws as [|x ws IH]; [reflexivity|]. apply Forall_cons_iff in F. destruct F as ((_ & W) & F).
    assert (X : upto "#" x = x) by (apply upto_none; intros n c E; now apply (W n c E)).
    destruct ws as [|y ws]; [exact X|]. rewrite concat_cons. apply upto_append; [exact X|].
    apply upto_append; [reflexivity|now apply IH].
  - eapply Forall_impl; [|exact F]. intros x (N & W). split; [assumption|]. intros n c E. now apply (W n c E).
Qed.

Theorem neat_read : forall w v, neat (prefix v) -> neat (compiler v) -> neat (unicode_version v) ->
  let read k := value_of k (config_make w v) in
  read "PREFIX" = prefix v /\ read "CXX" = compiler v /\ read "UNICODE_VERSION" = unicode_version v.
Proof.
  intros w v W1 W2 W3. destruct (make_reads w v) as (_ & R1 & R2 & R3 & _). cbv beta zeta in *.
  rewrite R1, R2, R3. rewrite !shown_neat by assumption. now repeat split.
Qed.

(** * Cases *)

Definition linux : surroundings :=
  {| uname := "Linux"; has_cmake := true; has_dpkg := true; has_rpm := false; has_debtap := false;
     env_home := "/home/me"; env_prefix := ""; env_compiler := ""; env_version := ""; env_second := "" |}.

Definition conda : surroundings :=
  {| uname := "Linux"; has_cmake := true; has_dpkg := true; has_rpm := false; has_debtap := false;
     env_home := "/home/me"; env_prefix := "/opt/conda"; env_compiler := ""; env_version := "15"; env_second := "" |}.

Definition mac : surroundings :=
  {| uname := "Darwin"; has_cmake := true; has_dpkg := false; has_rpm := false; has_debtap := false;
     env_home := "/Users/me"; env_prefix := ""; env_compiler := ""; env_version := ""; env_second := "" |}.

Lemma word_checked : forall s, forallb (fun c => negb (blank c) && negb (Ascii.eqb c "#")) (list_ascii_of_string s) = true -> word s.
Proof.
  intros s H n c E. rewrite forallb_forall in H. specialize (H c). rewrite andb_true_iff, !negb_true_iff in H.
  rewrite Ascii.eqb_neq in H. apply H. revert n E. clear. induction s as [|d s IH]; intros [|n] E; try discriminate; cbn in *.
  - injection E as ->. now left.
  - right. eapply IH. eassumption.
Qed.

Lemma inherited : exists w v, has_cmake w = true /\ settle w [] = Go v /\
  prefix v <> def_prefix w /\ unicode_version v <> "16".
Proof. exists conda. eexists. split; [reflexivity|]. split; [reflexivity|]. now split. Qed.

Lemma undocumented : exists w v, system_of w = Other /\ env_prefix w = "" /\ settle w [] = Go v /\
  prefix v <> documented_prefix w.
Proof. exists linux. eexists. now repeat split. Qed.

Lemma documented_elsewhere : forall w is v, system_of w <> Other -> env_prefix w = "" -> Forall proper is ->
  settle w (flat_map spelt is) = Go v -> prefix v = given the_prefix is (documented_prefix w).
Proof.
  intros w is v S E F H. destruct (settled_only _ _ _ H) as (C & _). rewrite settled in H by assumption.
  injection H as <-. cbn [prefix]. rewrite E.
  replace (documented_prefix w) with (def_prefix w) by (unfold documented_prefix, def_prefix; now destruct (system_of w)).
  clear -F. revert F. unfold given. induction is as [|i l IH] using rev_ind; intros F; [reflexivity|].
  rewrite !fold_left_app. cbn [fold_left]. apply Forall_app in F. destruct F as (F & P).
  apply Forall_cons_iff in P. destruct P as (P & _).
  destruct i as [x|x|x|x]; cbn [the_prefix]; try (now apply IH).
  unfold or_else. destruct (String.eqb x "") eqn:N; [|reflexivity]. apply String.eqb_eq in N. now subst x.
Qed.

Lemma sudo_at_home : exists w p, no_blank p /\ ~ privileged w p /\ wants_sudo w p = true /\
  exists s, p = append (env_home w) (append "/" s).
Proof.
  exists linux, "/home/me/local". split; [|split; [|split]].
  - intros n c E. now apply (word_checked "/home/me/local" eq_refl n c).
  - intros (_ & [[H|(s & H)]|[H|(s & H)]]); discriminate.
  - reflexivity.
  - now exists "local".
Qed.

Lemma no_sudo_for_root : exists w p, no_blank p /\ privileged w p /\ wants_sudo w p = false.
Proof.
  exists {| uname := "Linux"; has_cmake := true; has_dpkg := true; has_rpm := false; has_debtap := false;
     env_home := "/usr/me"; env_prefix := ""; env_compiler := ""; env_version := ""; env_second := "" |}, "/usr/me".
  split; [|split].
  - intros n c E. now apply (word_checked "/usr/me" eq_refl n c).
  - split; [discriminate|]. left. right. now exists "me".
  - reflexivity.
Qed.

Lemma blanks_lost : exists w v, settle w ["--prefix"; "/opt/my  tools"] = Go v /\
  prefix v = "/opt/my  tools" /\ value_of "PREFIX" (config_make w v) = "/opt/my tools".
Proof. exists linux. eexists. now repeat split. Qed.

Lemma hash_lost : exists w v, settle w ["--prefix"; "/opt/c#"] = Go v /\
  prefix v = "/opt/c#" /\ value_of "PREFIX" (config_make w v) = "/opt/c".
Proof. exists linux. eexists. now repeat split. Qed.
