(** Property C205: what AMF0 Decode returned can be encoded, and decoding that gives it again. *)
From Coq Require Import String Permutation.
From Verif Require Import Base.Go Base.GoFacts Base.IO Base.Float64 Proofs.IOFacts Model.AmfTypes Model.Amf3 Model.Amf0 Spec.Amf Spec.AmfDoc Spec.Amf3Doc Spec.Amf3Ref Spec.AmfAll Spec.AmfVal Spec.AmfAgain
  Proofs.AmfFacts Proofs.AmfHeap Proofs.AmfVal Proofs.AmfAgain Props.Amf0 Props.Amf3Ref Props.AmfVal.
Import ListNotations.

(** What v denotes in heap h can be passed to Encode, its maps traversed in any order. Encode then succeeds, and any decoder makes the
    same value of the bytes. *)
Definition comes_back (h : list omap) (v : value) : Prop :=
  (exists p, unfolds h v p) /\
  forall p w, unfolds h v p -> never_fails w ->
  exists w' enc, encode0 (go_value p) w = (w', Ok (len enc)) /\ w_out w' = w_out w ++ enc /\
  forall d rest e, d_r d = cont (enc ++ rest) e -> rest <> [] \/ e_zero e = false \/ ends_empty (go_value p) = false ->
  exists d' v', decode0 d = (d', Ok v') /\ d_r d' = cont rest e /\ unfolds (d_heap d') v' p.
(** The values a decoder keeps for references can be sent, and it has kept nothing of AMF3 values. *)
Definition sendable (h : list omap) (v : value) : Prop := exists p, unfolds h v p /\ ok0 (go_value p).
Definition amf0_only (d : dstate) : Prop := knows new_world d /\ Forall (sendable (d_heap d)) (d_ref0 d).

Lemma sendable_back h v : sendable h v -> comes_back h v.
Proof.
  intros (p & U & O). split; [exists p; exact U|]. intros q w Uq Hw. assert (Oq : ok0 (go_value q)) by exact (other_order h p O v q U Uq).
  destruct (C52_amf0_round_trip (go_value q) w Oq Hw) as (w' & enc & E & HO & G). exists w', enc. split; [exact E|]. split; [exact HO|]. intros d rest e Hr Hs. destruct (G d rest e Hr Hs) as (d' & v' & E' & R & X & _).
  exists d', v'. split; [exact E'|]. split; [exact R|]. rewrite (go_img q Oq) in X. exact X.
Qed.
Lemma sendable_env h tab : Forall (sendable h) tab -> exists env : list (option pval), Forall2 (fun o v => match o with Some p => unfolds h v p | None => True end) env tab /\ (forall i, nth_error env i <> Some None) /\ env_ok env.
Proof.
  induction 1 as [|v tab (p & Hp & Ho) _ (env & F & G & O)]; [exists []; split; [constructor|]; split; [intros [|i]; discriminate|constructor]|].
  exists (Some p :: env). split; [constructor; [exact Hp|exact F]|]. split; [intros [|i]; [discriminate|apply G]|constructor; [exact Ho|exact O]].
Qed.
Lemma env_sendable h env tab : Forall2 (fun o v => match o with Some p => unfolds h v p | None => True end) env tab -> (forall i, nth_error env i <> Some None) -> env_ok env -> Forall (sendable h) tab.
Proof.
  induction 1 as [|o v env tab HE F IH]; intros G O; [constructor|]. inversion O as [|? ? O1 O2]; subst. constructor; [|apply IH; [intros i; exact (G (S i))|exact O2]]. destruct o as [p|]; [exists p; split; [exact HE|exact O1]|exfalso; apply (G 0%nat); reflexivity].
Qed.

(** ** C205 *)
Theorem C205_again : forall d t rest e, d_r d = cont (layout0 t ++ rest) e -> amf0_only d -> is_bytes (layout0 t) -> doc_ok true t -> no_amf3 t ->
  refs_in (len (d_ref0 d)) t -> refers_up [] (len (d_ref0 d)) t = false -> rest <> [] \/ e_zero e = false \/ doc_ends_empty t = false ->
  exists d' v, decode0 d = (d', Ok v) /\ d_r d' = cont rest e /\ comes_back (d_heap d') v /\ amf0_only d'.
Proof.
  intros d t rest e Hr [HW HF] HB HO HA HR HU He. destruct (sendable_env _ _ HF) as (env & HK & HG & HE).
  assert (B : begins_with new_world (len (d_ref0 d)) (e_zero e) (layout0 t ++ rest) t 0 new_world rest).
  { split; [apply app_nil_r|]. split; [left; reflexivity|]. split; [exact HO|]. split; [exact HR|]. split; [apply embedded_none, HA|exact He]. }
  destruct (C164_has_value new_world env _ _ _ _ _ _ _ B) as (p & env' & R & _ & G'); [unfold len; rewrite (same_len _ _ _ HK); reflexivity|exact HG|exact HU|].
  destruct (C164_values new_world env d _ e t 0 p new_world env' rest Hr HW HK B R) as (d' & v & E & R' & X & K' & T' & _).
  destruct (proj1 reads_good _ _ _ _ _ _ _ R HA HO HB HE) as [O E'].
  exists d', v. split; [exact E|]. split; [exact R'|]. split; [apply sendable_back; exists p; split; assumption|]. split; [exact K'|]. exact (env_sendable _ _ _ T' G' E').
Qed.
Print Assumptions C205_again.
(** A new decoder has kept nothing. *)
Theorem C205_fresh : forall r, amf0_only (fresh r).
Proof. intros r. split; [apply fresh_knows|constructor]. Qed.
Print Assumptions C205_fresh.

(** An ECMA array with a date, a name that occurs twice, a typed object and two references to it, one of them to its members. *)
Definition doc205 : doc0 := A_ecma 7 [(str "d", A_date 4607182418800017408 60); (str "x", A_boolean 1); (str "t", A_typed (str "T") [(str "s", A_xml (str "<a/>"))]);
  (str "x", A_strict [A_reference 1; A_reference 2; A_undefined])].
Example C205_example : exists d' v, decode0 (fresh (bytes_reader (layout0 doc205))) = (d', Ok v) /\ comes_back (d_heap d') v /\
  unfolds (d_heap d') v (PObj [(str "x", PArr [PTyped [] []; PObj [(str "s", PStr (str "<a/>"))]; PNil]); (str "d", PNum 4607182418800017408); (str "t", PTyped (str "T") [(str "s", PStr (str "<a/>"))])]).
Proof.
  destruct (C205_again (fresh (bytes_reader (layout0 doc205))) doc205 [] (r_end (bytes_reader []))) as (d' & v & E & _ & C & _).
  - rewrite app_nil_r. reflexivity.
  - apply C205_fresh.
  - vm_compute. repeat (constructor; [split; vm_compute; congruence|]). constructor.
  - vm_compute. repeat split; congruence.
  - vm_compute. tauto.
  - vm_compute. repeat split; congruence.
  - reflexivity.
  - right. right. reflexivity.
  - exists d', v. split; [exact E|]. split; [exact C|]. vm_compute in E. injection E as <- <-.
    eapply (U_obj _ _ _ [(str "d", PNum 4607182418800017408); (str "x", PArr [PTyped [] []; PObj [(str "s", PStr (str "<a/>"))]; PNil]); (str "t", PTyped (str "T") [(str "s", PStr (str "<a/>"))])]); [reflexivity| |apply perm_swap].
    repeat first [apply Forall2_nil|apply Forall2_cons; [split; [reflexivity|cbn [snd]]|]].
    + apply U_num.
    + apply U_arr. repeat first [apply Forall2_nil|apply Forall2_cons].
      * first [apply U_typed_nil|eapply U_typed; [reflexivity|apply Forall2_nil|apply Permutation_refl]].
      * eapply (U_obj _ _ _ [(str "s", PStr (str "<a/>"))]); [reflexivity| |apply Permutation_refl]. apply Forall2_cons; [split; [reflexivity|apply U_str]|apply Forall2_nil].
      * apply U_nil.
    + eapply (U_typed _ _ _ _ [(str "s", PStr (str "<a/>"))]); [reflexivity| |apply Permutation_refl]. apply Forall2_cons; [split; [reflexivity|apply U_str]|apply Forall2_nil].
Qed.
