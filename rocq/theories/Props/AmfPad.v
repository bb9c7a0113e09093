(** Property C166: what decoding from an input that comes in several Read calls returns, AMF3 included (Spec/AmfPad.v). *)
From Coq Require Import String.
From Verif Require Import Base.Go Base.GoFacts Base.IO Base.Float64 Proofs.IOFacts Model.AmfTypes Model.Amf3 Model.Amf0 Spec.Amf Spec.Amf3Doc Spec.AmfPad
  Proofs.AmfFacts Proofs.AmfContr Proofs.AmfPad.

(** ** C166: a call that succeeds on chunks returns the value of those chunks in one piece, except that zero bytes may have been put behind
    some of them. Decoder and remaining input are those of the call on the one piece, too. *)
Theorem C166_amf3_padded_chunks : forall d d' v, decode3 d = (d', Ok v) -> exists s, padded true (r_chunks (d_r d)) s /\
  decode3 (set_r (cont s (eof false)) d) = (set_r (cont (r_rest (d_r d')) (eof false)) d', Ok v).
Proof.
  intros d d' v E. destruct (decode3_pad true d d' v ltac:(discriminate) E) as (s & P & R). exists s. split; [exact P|]. rewrite !cont_contr. exact R.
Qed.
Print Assumptions C166_amf3_padded_chunks.
Theorem C166_amf0_padded_chunks : forall d d' v, decode0 d = (d', Ok v) -> exists s, padded true (r_chunks (d_r d)) s /\
  decode0 (set_r (cont s (eof false)) d) = (set_r (cont (r_rest (d_r d')) (eof false)) d', Ok v).
Proof.
  intros d d' v E. destruct (decode0_pad true d d' v ltac:(discriminate) E) as (s & P & R). exists s. split; [exact P|]. rewrite !cont_contr. exact R.
Qed.
Print Assumptions C166_amf0_padded_chunks.

(** Where the markers of XML documents and byte arrays do not occur there is no padding: success on chunks is success on the same bytes in one piece. *)
Theorem C166_amf3_whole : forall d d' v, (forall b, In b (r_rest (d_r d)) -> b <> 7 /\ b <> 11 /\ b <> 12) -> decode3 d = (d', Ok v) ->
  decode3 (set_r (cont (r_rest (d_r d)) (eof false)) d) = (set_r (cont (r_rest (d_r d')) (eof false)) d', Ok v).
Proof.
  intros d d' v N E. destruct (decode3_pad false d d' v) as (s & P & R); [|exact E|].
  - intros _. unfold no_blob, rest_of. repeat split; intros X; specialize (N _ X); lia.
  - rewrite !cont_contr. apply padded_false in P. subst s. exact R.
Qed.
Print Assumptions C166_amf3_whole.
Theorem C166_amf0_whole : forall d d' v, (forall b, In b (r_rest (d_r d)) -> b <> 7 /\ b <> 11 /\ b <> 12) -> decode0 d = (d', Ok v) ->
  decode0 (set_r (cont (r_rest (d_r d)) (eof false)) d) = (set_r (cont (r_rest (d_r d')) (eof false)) d', Ok v).
Proof.
  intros d d' v N E. destruct (decode0_pad false d d' v) as (s & P & R); [|exact E|].
  - intros _. unfold no_blob, rest_of. repeat split; intros X; specialize (N _ X); lia.
  - rewrite !cont_contr. apply padded_false in P. subst s. exact R.
Qed.
Print Assumptions C166_amf0_whole.

(** The padding does happen: every byte array and every XML document cut between two Read calls is returned with zeros for
    the bytes after the cut, without an error, and those bytes are read as what follows the value. In one piece the same input gives the bytes sent. *)
Theorem C166_cut_content_refuted : forall m d (b a c rest : bytes) e w, m = 7 \/ m = 11 \/ m = 12 -> u29 (2 * (len a + len c) + 1) b -> a <> [] -> c <> [] ->
  d_r d = mkR [m :: b ++ a; c ++ rest] e w ->
  let val x := if m =? 12 then VBytes x else VStr x in
  (exists d', decode3 d = (d', Ok (val (a ++ repeat 0 (length c)))) /\ r_rest (d_r d') = c ++ rest) /\
  (exists d', decode3 (set_r (cont (m :: b ++ a ++ c ++ rest) e) d) = (d', Ok (val (a ++ c))) /\ r_rest (d_r d') = rest).
Proof.
  intros m d b a c rest e w Hm Hu Ha Hc Hr val. split.
  - rewrite (blob_cut m d b a c _ e w Hm Hu Ha Hc Hr) by discriminate. cbv zeta. eexists. split; [reflexivity|].
    cbn [set_obj3 set_r d_r r_rest r_chunks concat]. unfold r_rest. cbn [r_chunks concat]. rewrite app_nil_r. reflexivity.
  - rewrite cont_contr. assert (Hac : a ++ c <> []) by (destruct a; [congruence|discriminate]). rewrite (app_assoc a c rest).
    rewrite (blob_whole m _ b (a ++ c) rest e Hm) by (try rewrite len_app; assumption || reflexivity). cbv zeta. eexists. split; [reflexivity|].
    cbn [set_obj3 set_r d_r]. apply contr_rest.
Qed.
Print Assumptions C166_cut_content_refuted.
(** A string cut like that is an error. *)
Theorem C166_cut_string_partial : forall d (b a c rest : bytes) e w, u29 (2 * (len a + len c) + 1) b -> a <> [] -> c <> [] ->
  d_r d = mkR [6 :: b ++ a; c ++ rest] e w -> snd (decode3 d) = Err EOther.
Proof. intros d b a c rest e w Hu Ha Hc Hr. eapply string_cut; eauto. discriminate. Qed.
Print Assumptions C166_cut_string_partial.
(** A byte array of four bytes, cut in the middle, followed by a string; an array of two integers in three chunks. *)
Example C166_example :
  u29 (2 * (len [1; 2] + len [3; 4]) + 1) [9] /\
  snd (decode3 (fresh (mkR [[12; 9; 1; 2]; [3; 4; 6; 3; 97]] (eof true) false))) = Ok (VBytes [1; 2; 0; 0]) /\
  snd (decode3 (fresh (mkR [[12; 9; 1; 2; 3; 4; 6; 3; 97]] (eof true) false))) = Ok (VBytes [1; 2; 3; 4]) /\
  snd (decode3 (fresh (mkR [[6; 9; 1; 2]; [3; 4]] (eof true) false))) = Err EOther /\
  snd (decode3 (fresh (mkR [[9; 5; 1; 4]; [129]; [1; 4; 2]] (eof true) false))) = Ok (VEcma [VU32 129; VU32 2] (Some O)) /\
  snd (decode0 (fresh (mkR [[17; 12; 9; 1; 2]; [3; 4]] (eof true) false))) = Ok (VBytes [1; 2; 0; 0]).
Proof. split; [apply u29_1; lia|]. repeat split. Qed.
