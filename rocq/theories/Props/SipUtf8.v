(** C192: parameter lists in any text, UTF-8 or not. *)
From Coq Require Import String.
From Verif Require Import Base.Go Base.GoFacts Base.IO Base.Text Model.Sip Spec.Sip Spec.SipParams Spec.SipNames Spec.SipUtf8 Proofs.Text Proofs.Sip Proofs.SipMsg Proofs.SipHeaders Proofs.SipParams Proofs.SipUtf8 Props.SipNames.
Import ListNotations. Local Open Scope list_scope. Local Open Scope Z_scope.

(** Every text has characters, and they divide into elements. *)
Theorem C192_every_text : forall value, is_bytes value -> exists cs t es, chars value cs /\ stripped cs t /\ items t es.
Proof.
  intros value B. destruct (stripped_exists (runes value)) as [t T]. destruct (items_exist t) as [es I]. exists (runes value), t, es. split; [now apply runes_chars|]. auto.
Qed.
(** The characters of a text are determined by it; those of UTF-8 are the ones that were encoded. *)
Theorem C192_characters : forall value, is_bytes value -> (forall cs cs', chars value cs -> chars value cs' -> cs = cs') /\
  (forall cs, Forall scalar cs -> value = utf8s cs -> chars value cs).
Proof.
  intros value B. split; [intros cs cs' H H'; apply chars_runes in H, H'; congruence|]. intros cs H ->. clear B. induction H as [|r cs Hr H IH]; [constructor|]. cbn [utf8s flat_map]. now constructor.
Qed.
(** ParseArgsPairs gives every key the value of the last parameter with this key; it panics just if an element is broken. *)
Theorem C192_parameters : forall value cs t es, is_bytes value -> chars value cs -> stripped cs t -> items t es ->
  (parse_args_pairs value = Panic <-> Exists broken (map utf8s es)) /\
  (~ Exists broken (map utf8s es) -> exists m, parse_args_pairs value = Ok m /\ forall k v, mget k m = Some v <-> last_value (map utf8s es) k v).
Proof.
  intros value cs t es B C S I. pose proof (parse_list_items _ _ _ _ B C S I) as L. unfold parse_args_pairs. rewrite L. split.
  - destruct (parse_pairs_cases (map utf8s es) new_args) as [[H1 H2]|[[m H1] H2]]; [tauto|]. rewrite H1. split; [discriminate|tauto].
  - intros N. destruct (pairs_result (map utf8s es) N new_args) as [m [E' M]]. exists m. split; [assumption|]. intros k v. rewrite M. split; [intros [H|[H _]]; [assumption|discriminate]|now left].
Qed.
(** Credentials of the scheme Digest, in any text. *)
Theorem C192_digest : forall src rest cs t es, digest src rest -> is_bytes rest -> chars rest cs -> stripped cs t -> items t es ->
  (new_auth src = Panic <-> Exists broken (map utf8s es)) /\
  (~ Exists broken (map utf8s es) -> exists a, new_auth src = Ok a /\ a_src a = src /\ forall k v, mget k (a_args a) = Some v <-> last_value (map utf8s es) k v).
Proof.
  intros src rest cs t es D B C S I. destruct (C192_parameters _ _ _ _ B C S I) as [P1 P2]. pose proof (digest_drop _ _ D) as DD. unfold new_auth. pose proof D as D2. rewrite <- DD in D2. rewrite (proj2 (digest_prefix src) D2), DD.
  split.
  - rewrite <- P1. destruct (parse_args_pairs rest); cbn [bind]; split; intros X; try discriminate; try exact X; reflexivity.
  - intros N. destruct (P2 N) as (m & -> & M). cbn [bind]. eexists. split; [reflexivity|]. split; [reflexivity|]. exact M.
Qed.
Lemma high_bytes v : Forall scalar v -> Forall (fun c => 128 <= c) v -> Forall (fun x => 128 <= x) (utf8s v).
Proof.
  intros V W. apply Forall_forall. intros x H. apply in_flat_map in H as (r & R1 & R2). rewrite Forall_forall in V, W. specialize (V r R1). specialize (W r R1). unfold scalar in V. cbn beta in W.
  pose proof (Z.div_pos r 64 ltac:(lia) ltac:(lia)). pose proof (Z.div_pos r 4096 ltac:(lia) ltac:(lia)). pose proof (Z.div_pos r 262144 ltac:(lia) ltac:(lia)).
  pose proof (Z.mod_pos_bound r 64 ltac:(lia)). pose proof (Z.mod_pos_bound (r / 64) 64 ltac:(lia)). pose proof (Z.mod_pos_bound (r / 4096) 64 ltac:(lia)).
  unfold utf8 in R2. replace (r <? 128) with false in R2 by lia. destruct (r <? 2048); [|destruct (r <? 65536)]; cbn [In] in R2; lia.
Qed.
(** A value of non-ASCII characters without white space comes back as it was written. *)
Theorem C192_value_kept : forall k v, k <> [] -> Forall graphic k -> without (str ",;=""") k ->
  v <> [] -> Forall scalar v -> Forall (fun c => 128 <= c /\ ~ white c) v ->
  exists m, parse_args_pairs (k ++ str "=" ++ utf8s v) = Ok m /\ args_get m k = utf8s v.
Proof.
  intros k v K G O N V W. set (cs := k ++ [61] ++ v). change (str "=") with [61].
  assert (H8 : Forall (fun x => 128 <= x) (utf8s v)) by (apply high_bytes; [exact V|eapply Forall_impl; [|exact W]; cbn; tauto]). rewrite Forall_forall in W.
  assert (E : k ++ [61] ++ utf8s v = utf8s cs).
  { unfold cs, utf8s. rewrite !flat_map_app. f_equal. clear - G. induction G as [|c k Hc G IH]; [reflexivity|]. cbn [flat_map]. rewrite <- IH. unfold utf8. unfold graphic in Hc. replace (c <? 128) with true by lia. reflexivity. }
  assert (SC : Forall scalar cs). { apply Forall_app. split; [eapply Forall_impl; [|exact G]; unfold graphic, scalar; intros; lia|]. constructor; [unfold scalar; lia|exact V]. }
  assert (HR : runes (k ++ [61] ++ utf8s v) = cs).
  { rewrite E. unfold runes. pose proof (decode_utf8s cs SC []) as D. cbn [decode_runes] in D. rewrite !app_nil_r in D. rewrite D, map_map. cbn [fst]. apply map_id. }
  assert (NB : forall c, In c cs -> ~ white c).
  { intros c H. apply in_app_or in H as [H|H]; [|destruct H as [<-|H]; [unfold white; cbn [In]; lia|now apply W]].
    rewrite Forall_forall in G. specialize (G c H). unfold graphic in G. unfold white. cbn [In]. lia. }
  assert (ST : stripped cs cs).
  { exists [], []. rewrite app_nil_r. split; [reflexivity|]. split; [constructor|]. split; [constructor|]. split; intros c u Ec; apply NB; rewrite Ec; [now left|apply in_or_app; right; now left]. }
  assert (TR : trim_space (k ++ [61] ++ utf8s v) = k ++ [61] ++ utf8s v). { rewrite E, trim_space_utf8s by exact SC. f_equal. now apply stripped_iff. }
  assert (EL : forall c, In c cs -> ~ separator c /\ c <> 34).
  { intros c H. unfold separator. apply in_app_or in H as [H|H]; [|destruct H as [<-|H]; [lia|destruct (W c H); lia]].
    unfold without in O. rewrite Forall_forall in O, G. specialize (O c H). specialize (G c H). cbn in O. unfold graphic in G. lia. }
  assert (IT : items cs [cs]).
  { eapply It_last; [unfold cs; destruct k; [congruence|discriminate]| |exact ST]. apply LE_whole. clear - EL. induction cs as [|c cs IH]; [constructor|].
    destruct (EL c (or_introl eq_refl)). constructor; [assumption|assumption|]. apply IH. intros d Hd. apply EL. now right. }
  assert (L : parse_list (trim_space (k ++ [61] ++ utf8s v)) = [k ++ [61] ++ utf8s v]).
  { unfold parse_list. rewrite TR, HR, (list_items _ _ IT SC). cbn [map app]. now rewrite <- E. }
  assert (OK : without (str "=") k) by (eapply Forall_impl; [|exact O]; cbn; intros; lia).
  assert (NE : utf8s v <> []). { destruct v as [|r v]; [congruence|]. cbn [utf8s flat_map]. pose proof (utf8_nonempty r). destruct (utf8 r); [cbn in H; lia|discriminate]. }
  assert (P : param (k ++ [61] ++ utf8s v) k (utf8s v)).
  { apply (Pa_value k); [exact OK|exact NE| |]; intros; intros C; rewrite C in H8; inversion H8; lia. }
  assert (LASTB : forall x y, k ++ [61] ++ utf8s v = x ++ [y] -> 128 <= y).
  { intros x y C. destruct (exists_last NE) as (u & d & U). rewrite U in C, H8. apply Forall_app in H8 as [_ H8]. apply Forall_inv in H8. rewrite !app_assoc in C. apply app_inj_tail in C as [_ <-]. exact H8. }
  unfold parse_args_pairs. rewrite L. cbn [parse_pairs].
  destruct (param_pair (k ++ [61] ++ utf8s v)) as [(k' & OK' & [C|C])|[_ (k' & v' & P' & Q)]].
  - apply LASTB in C. lia.
  - replace (k' ++ [61; 34]) with ((k' ++ [61]) ++ [34]) in C by (rewrite <- app_assoc; reflexivity). apply LASTB in C. lia.
  - rewrite Q. cbn [bind]. eexists. split; [reflexivity|]. destruct (param_fun _ _ _ _ _ P P') as [<- <-]. unfold args_get. now rewrite mget_mset_same.
Qed.
(** Unicode white space around an element goes; a byte that is not UTF-8 becomes U+FFFD, wherever it is. *)
Definition sample_192 : bytes := utf8s [8195] ++ str "a=" ++ utf8s [252; 8364; 128512] ++ utf8s [160] ++ str "; b=x" ++ [200] ++ str "y".
Example C192_example : exists m, parse_args_pairs sample_192 = Ok m /\ args_get m (str "a") = utf8s [252; 8364; 128512] /\ args_get m (str "b") = str "x" ++ utf8s [65533] ++ str "y".
Proof. eexists. split; [vm_compute; reflexivity|]. split; reflexivity. Qed.
Example C192_example_hypotheses : is_bytes sample_192 /\ Forall scalar [252; 8364; 128512] /\ Forall (fun c => 128 <= c /\ ~ white c) [252; 8364; 128512] /\
  exists cs t es, chars sample_192 cs /\ stripped cs t /\ items t es /\ ~ Exists broken (map utf8s es).
Proof.
  assert (B : is_bytes sample_192). { apply Forall_forall. intros c Hc. unfold byte. vm_compute in Hc. decompose [or] Hc; subst; try lia; contradiction. }
  split; [exact B|]. split; [unfold scalar; repeat constructor; lia|]. split; [unfold white; repeat constructor; cbn [In]; lia|].
  destruct (C192_every_text sample_192 B) as (cs & t & es & C & S & I). exists cs, t, es. split; [exact C|]. split; [exact S|]. split; [exact I|].
  intros X. apply (C192_parameters _ _ _ _ B C S I) in X. vm_compute in X. discriminate.
Qed.
Print Assumptions C192_every_text.
Print Assumptions C192_characters.
Print Assumptions C192_parameters.
Print Assumptions C192_digest.
Print Assumptions C192_value_kept.
