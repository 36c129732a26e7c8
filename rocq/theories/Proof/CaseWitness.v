(* Statements and witnesses used by Props/Case.v. *)
From Coq Require Import ZArith List Bool Lia ZifyBool.
From Verif Require Import Machine.
From Verif.Model Require Import Tables Str Lower.
From Verif.Spec Require Import Utf Target Result Ucd Lowercase Case.
From Verif.Proof Require Import Bits ToFuncs Round TextFacts Classes LowerTools TablesFacts CaseFacts.
Import ListNotations.
Local Open Scope Z_scope.

Lemma english_language : language (At [0x65; 0x6e; 0; 99]).
Proof. right. exists [0x65; 0x6e], [99]. split; [reflexivity|]. cbn [In]. intuition discriminate. Qed.
Lemma data_refuted v : exists c r, unit32 c /\ toLower_32 (tables v) [c] Null = Done [r] /\ ~ lowers_to v c r.
Proof.
  destruct (departs_multiplication_sign v) as (r & E & H). exists 0xD7, r. split; [unfold unit32; lia|]. now split.
Qed.
Lemma not_listed (l : list (Z * Z)) c : existsb (fun p => fst p =? c) l = false -> forall d, ~ In (c, d) l.
Proof.
  intros H d Hd. assert (existsb (fun p : Z * Z => fst p =? c) l = true); [|congruence].
  apply existsb_exists. exists (c, d). split; [assumption|]. cbn [fst]. lia.
Qed.
Lemma data_case1 : lowers_to V16 0x10400 0x10428.
Proof.
  assert (H : existsb (fun p => (fst p =? 0x10400) && (snd p =? 0x10428)) (ucd_lower V16) = true) by (vm_compute; reflexivity).
  apply existsb_exists in H. destruct H as ([c d] & Hin & E). cbn [fst snd] in E. left.
  replace 0x10400 with c by lia. replace 0x10428 with d by lia. assumption.
Qed.
Lemma data_case2 : lowers_to V16 0x61 0x61.
Proof. right. split; [|reflexivity]. apply not_listed. vm_compute. reflexivity. Qed.
Lemma data_case3 : ~ departs V16 0x10400.
Proof.
  intros [H|[d H]]; [rewrite <- inside_spec in H; discriminate H|]. revert H. apply not_listed. vm_compute. reflexivity.
Qed.
Lemma data_case4 : departs V16 0x1C90.
Proof. left. apply inside_spec. vm_compute. reflexivity. Qed.

Lemma turkic_case1 : turkic (At [0x74; 0x72; 0; 1]).
Proof. exists [0x74; 0x72], [1]. split; [reflexivity|]. unfold turkic_codes. find_in. Qed.
Lemma turkic_case2 : turkic (At [0x61; 0x7a; 0x62; 0]).
Proof. exists [0x61; 0x7a; 0x62], []. split; [reflexivity|]. unfold turkic_codes. find_in. Qed.
Lemma turkic_case3 : language (At [0x74; 0x72; 0x75; 0]).
Proof. right. exists [0x74; 0x72; 0x75], []. split; [reflexivity|]. cbn [In]. intuition discriminate. Qed.
Lemma turkic_case4 : ~ turkic (At [0x74; 0x72; 0x75; 0]).
Proof.
  intros H. destruct (language_spec _ turkic_case3) as (b & E & Hb). rewrite <- Hb in H. subst b. discriminate E.
Qed.
Lemma turkic_case5 : ~ turkic Null.
Proof. intros (l & junk & E & _). discriminate E. Qed.
Lemma scalar_case : Forall scalar [0x1E921; 0x41].
Proof. repeat constructor; unfold surrogate; lia. Qed.
Lemma lower_scalars v lang s : language lang -> Forall scalar s -> exists r,
  toLower_32 (tables v) s lang = Done r /\ Forall scalar r /\ length r = length s.
Proof. apply lower_keeps; [trivial|apply scalar_unit32]. Qed.
Lemma lower_zero v lang s : language lang -> Forall unit32 s -> exists r,
  toLower_32 (tables v) s lang = Done r /\ Forall2 (fun c d => d = 0 <-> c = 0) s r.
Proof.
  intros H Hs. destruct (language_spec lang H) as (b & E & _). exists (map (mapping (tables v) b) s).
  rewrite (toLower_32_map _ _ _ _ E). split; [reflexivity|].
  induction Hs as [|c s Hc _ IH]; cbn [map]; constructor; [|exact IH]. split.
  - intros Hz. destruct (mapping_value v b c Hc) as [E'|Hv]; [congruence|]. unfold scalar in Hv. lia.
  - intros ->. apply zero_fixed.
Qed.

(* lower-casing twice in the other encodings *)
Lemma lower_8_twice v lang bs : language lang -> text8 bs -> exists r,
  toLower_8 (tables v) bs lang = Done r /\ toLower_8 (tables v) r lang = Done r.
Proof.
  intros H Hb. destruct (reads_as_dec bs Hb) as [[cs Hr]|Hn].
  - destruct (lower_8 v lang bs cs H Hb Hr) as (low & E1 & E2 & _). exists (flat_map utf8_bytes low). split; [assumption|].
    pose proof (reads_as_range _ _ Hr) as He.
    destruct (lower_keeps v lang cs encodable8 scalar_encodable8 encodable_unit32 H He) as (low' & E1' & Hl & _).
    rewrite E1 in E1'. injection E1' as <-.
    assert (Hr' : reads_as low (flat_map utf8_bytes low)).
    { exists (flat_map utf8_bytes low), []. rewrite app_nil_r. split; [reflexivity|]. split; [now apply utf8_text_flat|now left]. }
    destruct (lower_8 v lang _ low H (text8_flat _ Hl) Hr') as (low2 & E3 & E4 & _). rewrite E4. do 2 f_equal.
    destruct (lower_idempotent v lang cs H) as (r & E5 & E6).
    { eapply Forall_impl; [|exact He]. exact encodable_unit32. }
    congruence.
  - exists []. split; [now apply lower_8_bad|]. reflexivity.
Qed.
Lemma lower_16_twice v lang us : language lang -> text16 us -> exists r,
  toLower_16 (tables v) us lang = Done r /\ toLower_16 (tables v) r lang = Done r.
Proof.
  intros H Hb. destruct (reads16_dec us Hb) as [[cs Hr]|Hn].
  - destruct (lower_16 v lang us cs H Hb Hr) as (low & E1 & E2 & _). exists (flat_map utf16_units low). split; [assumption|].
    assert (He : Forall scalar cs) by (destruct Hr as (body & tail & _ & [Hs _] & _); assumption).
    destruct (lower_scalars v lang cs H He) as (low' & E1' & Hl & _).
    rewrite E1 in E1'. injection E1' as <-.
    assert (Hr' : reads_as16 low (flat_map utf16_units low)).
    { exists (flat_map utf16_units low), []. rewrite app_nil_r. split; [reflexivity|]. split; [now apply utf16_text_flat|now left]. }
    destruct (lower_16 v lang _ low H (text16_flat _ Hl) Hr') as (low2 & E3 & E4 & _). rewrite E4. do 2 f_equal.
    destruct (lower_idempotent v lang cs H) as (r & E5 & E6).
    { eapply Forall_impl; [|exact He]. exact scalar_unit32. }
    congruence.
  - exists []. split; [now apply lower_16_bad|]. reflexivity.
Qed.
