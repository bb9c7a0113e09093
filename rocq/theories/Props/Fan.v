(** Property C129: one packet handed to several FLV mixers. *)
From Coq Require Import String.
From Verif Require Import Base.Go Base.GoFacts Base.IO Model.AmfTypes Model.Amf3 Model.Amf0 Model.Metadata Model.Packet Model.Flv
  Proofs.IOFacts Proofs.AmfFacts Proofs.AmfContr Proofs.Metadata.
Import ListNotations.

(** A call of Mux: the mixer, the time stamp and the writer it is made with. *)
Definition job := (mixer * Z * writer)%type.
Definition outcome := (mixer * (writer * res unit))%type.
Definition run1 (p : packet) (j : job) : packet * outcome :=
  let '(x, pts, w) := j in let '(x', p', r) := mixer_mux x p pts w in (p', (x', r)).
(** The one packet goes from mixer to mixer. *)
Fixpoint in_turn (p : packet) (js : list job) : list outcome :=
  match js with
  | [] => []
  | j :: js' => let '(p', o) := run1 p j in o :: in_turn p' js'
  end.
(** Every mixer gets a packet of its own. *)
Definition with_copies (p : packet) (js : list job) : list outcome := map (fun j => snd (run1 p j)) js.

(** The AMF0 string s, as a metadata packet starts with it. *)
Definition amf0_string (s : bytes) : bytes := 2 :: be16 (len s) ++ s.
Definition starts_with_name (d : bytes) : Prop := exists s rest, 0 < len s < 65536 /\ s <> str "@setDataFrame" /\ d = amf0_string s ++ rest.

Lemma select_media p : p_type p <> PktMetadata -> forall ty d, mux_select p = Ok (ty, d) -> d = p_data p.
Proof. intros H ty d. unfold mux_select. destruct (_ =? _); [congruence|]. destruct (_ =? _); [congruence|]. destruct (Z.eqb_spec (p_type p) PktMetadata); [contradiction|discriminate]. Qed.
Lemma select_meta p : p_type p = PktMetadata -> mux_select p = let* d := snd (del_meta_header decode0 (fresh (bytes_reader [])) (p_data p)) in Ok (TagScriptDataAMF0, d).
Proof. intros H. unfold mux_select. rewrite H. reflexivity. Qed.
Lemma del_name d rest : starts_with_name rest -> snd (del_meta_header decode0 d rest) = Ok rest.
Proof.
  intros (s & r & Hl & Hs & ->). unfold del_meta_header, amf0_string. rewrite bytes_reader_contr. cbn [app]. rewrite <- app_assoc. erewrite decode0_short; [|reflexivity|exact Hl].
  cbn [snd]. destruct (bytes_eqb s set_data_frame) eqn:E; [|reflexivity]. apply bytes_eqb_eq in E. contradiction.
Qed.
Lemma del_frame d rest : snd (del_meta_header decode0 d (amf0_string (str "@setDataFrame") ++ rest)) = Ok rest.
Proof. change (amf0_string (str "@setDataFrame")) with set_frame_frame. unfold del_meta_header. rewrite decode0_frame, bytes_eqb_refl, len_frame, drop_frame. reflexivity. Qed.

(** What Mux does depends only on the tag type and payload selected, and the packet keeps that payload. *)
Lemma run1_select p q j ty d : mux_select p = Ok (ty, d) -> mux_select q = Ok (ty, d) -> snd (run1 p j) = snd (run1 q j) /\ fst (run1 p j) = set_data d p.
Proof.
  intros Hp Hq. destruct j as [[x pts] w]. unfold run1, mixer_mux, mux. rewrite Hp, Hq. destruct (write _ w) as [w1 [[]|e| |]]; try (split; reflexivity). destruct (write d w1) as [w2 [[]|e| |]]; split; reflexivity.
Qed.
Lemma run1_fails p j : (forall ty d, mux_select p <> Ok (ty, d)) -> fst (run1 p j) = p.
Proof.
  intros H. destruct j as [[x pts] w]. unfold run1, mixer_mux, mux. destruct (mux_select p) as [[ty d]|e| |]; try reflexivity. destruct (H ty d eq_refl).
Qed.
Lemma stable_fan p js : (forall ty d, mux_select p = Ok (ty, d) -> mux_select (set_data d p) = Ok (ty, d)) -> in_turn p js = with_copies p js.
Proof.
  intros HS. assert (X : (forall ty d, mux_select p <> Ok (ty, d)) \/ exists ty d, mux_select p = Ok (ty, d)).
  { destruct (mux_select p) as [[ty d]|e| |]; [right; eauto|left|left|left]; discriminate. }
  destruct X as [X|(ty & d & E)].
  - induction js as [|j js IH]; [reflexivity|]. cbn [in_turn with_copies map]. rewrite <- (run1_fails p j X) in IH at 1. destruct (run1 p j) as [p' o]. cbn [fst snd] in *. f_equal. exact IH.
  - assert (G : forall q, mux_select q = Ok (ty, d) -> set_data d q = set_data d p -> in_turn q js = with_copies p js).
    { induction js as [|j js IH]; intros q Hq Hd; [reflexivity|]. cbn [in_turn with_copies map]. destruct (run1_select q p j ty d Hq E) as [A B]. destruct (run1 q j) as [p' o]. cbn [fst snd] in *. subst p'. f_equal; [exact A|].
      apply IH; [rewrite Hd; exact (HS _ _ E)|rewrite Hd; reflexivity]. }
    apply G; [exact E|reflexivity].
Qed.
(** The length of what a mixer writes: as much more as the payload is longer. *)
Lemma out_len p q x pts w ty d ty' d' : mux_select p = Ok (ty, d) -> mux_select q = Ok (ty', d') -> never_fails w ->
  len (w_out (fst (snd (snd (run1 p (x, pts, w)))))) - len d = len (w_out (fst (snd (snd (run1 q (x, pts, w)))))) - len d'.
Proof.
  intros Hp Hq Hw. unfold run1, mixer_mux, mux. rewrite Hp, Hq. rewrite !write_never_fails by exact Hw. cbn [snd fst w_out].
  repeat (rewrite write_never_fails by exact Hw; cbn [snd fst w_out]). rewrite !len_app.
  assert (L : forall s i v v', len (put32 s i v) = len (put32 s i v')) by (intros s i v v'; unfold put32; rewrite !len_app, !len_be32; reflexivity).
  assert (L2 : forall s s' i v v', len s = len s' -> len (put32 s i v) = len (put32 s' i v')).
  { intros s s' i v v' H. unfold put32, take, drop, len in *. rewrite !app_length, !firstn_length, !skipn_length. change (length (be32 v)) with 4%nat. change (length (be32 v')) with 4%nat. lia. }
  set (n := u32 (len d)). set (n' := u32 (len d')).
  assert (E1 : forall a b, len (put32 (put32 (x_tag (mx_muxer x)) 0 a) 4 b) = len (put32 (put32 (x_tag (mx_muxer x)) 0 0) 4 0)) by (intros a b; apply L2, L).
  assert (E2 : forall a b c, len (take (put32 (put32 (put32 (x_tag (mx_muxer x)) 0 a) 4 b) 0 c) 4) = len (take (put32 (put32 (put32 (x_tag (mx_muxer x)) 0 0) 4 0) 0 0) 4)).
  { intros a b c. assert (X : forall s s', len s = len s' -> len (take s 4) = len (take s' 4)) by (intros s s' H; unfold take, len in *; rewrite !firstn_length; lia). apply X, L2, E1. }
  rewrite (E2 (u32 (u32 (Z.shiftl ty 24) + Z.land n 16777215))), (E2 (u32 (u32 (Z.shiftl ty' 24) + Z.land n' 16777215))).
  rewrite (E1 (u32 (u32 (Z.shiftl ty 24) + Z.land n 16777215))), (E1 (u32 (u32 (Z.shiftl ty' 24) + Z.land n' 16777215))). lia.
Qed.

(** ** C129 *)
(** When @setDataFrame stands twice in front, the first Mux removes one and the second the other: the second mixer never gets
    the tag it gets from a packet of its own. *)
Theorem C129_fan_out_refuted : forall p rest x1 pts1 w1 x2 pts2 w2, p_type p = PktMetadata -> starts_with_name rest ->
  p_data p = amf0_string (str "@setDataFrame") ++ amf0_string (str "@setDataFrame") ++ rest -> never_fails w2 ->
  in_turn p [(x1, pts1, w1); (x2, pts2, w2)] <> with_copies p [(x1, pts1, w1); (x2, pts2, w2)].
Proof.
  intros p rest x1 pts1 w1 x2 pts2 w2 Ht Hr Hd Hw H. set (fr := amf0_string (str "@setDataFrame")) in *.
  assert (E1 : mux_select p = Ok (TagScriptDataAMF0, fr ++ rest)) by (rewrite select_meta, Hd by exact Ht; unfold fr; rewrite del_frame; reflexivity).
  assert (E2 : mux_select (set_data (fr ++ rest) p) = Ok (TagScriptDataAMF0, rest)) by (rewrite select_meta by exact Ht; cbn [p_data set_data]; unfold fr; rewrite del_frame; reflexivity).
  cbn [in_turn with_copies map] in H. pose proof (run1_select p p (x1, pts1, w1) _ _ E1 E1) as [_ HP]. destruct (run1 p (x1, pts1, w1)) as [p1 o1]. cbn [fst snd] in *. subst p1.
  destruct (run1 (set_data (fr ++ rest) p) (x2, pts2, w2)) as [p2 o2] eqn:R2. injection H as H. change (o2 = snd (run1 p (x2, pts2, w2))) in H.
  pose proof (out_len (set_data (fr ++ rest) p) p x2 pts2 w2 _ _ _ _ E2 E1 Hw) as L. rewrite R2 in L. cbn [snd] in L. rewrite H in L. rewrite len_app in L. change (len fr) with 16 in L. lia.
Qed.
Print Assumptions C129_fan_out_refuted.
(** Proved: otherwise - media packets, metadata without @setDataFrame in front, and metadata with @setDataFrame followed by
    another name - any number of mixers get what they would from packets of their own. *)
Theorem C129_fan_out_partial : forall p js,
  (p_type p <> PktMetadata \/ starts_with_name (p_data p) \/ exists d, p_data p = amf0_string (str "@setDataFrame") ++ d /\ starts_with_name d) ->
  in_turn p js = with_copies p js.
Proof.
  intros p js H. apply stable_fan. intros ty d E. destruct (Z.eq_dec (p_type p) PktMetadata) as [Ht|Ht].
  - rewrite select_meta in E |- * by exact Ht. cbn [p_data set_data]. destruct H as [H|[H|(d' & Hd & H)]]; [contradiction| |].
    + rewrite del_name in E by exact H. inversion E; subst. rewrite del_name by exact H. reflexivity.
    + rewrite Hd, del_frame in E. inversion E; subst. rewrite del_name by exact H. reflexivity.
  - pose proof (select_media p Ht _ _ E) as ->. rewrite <- E. destruct p; reflexivity.
Qed.
Print Assumptions C129_fan_out_partial.
Example C129_example : let p := mkP PktMetadata 0 0 0 None (amf0_string (str "@setDataFrame") ++ amf0_string (str "onMetaData") ++ [3; 0; 0; 9]) None in
  (exists d, p_data p = amf0_string (str "@setDataFrame") ++ d /\ starts_with_name d) /\
  map (fun o => snd (snd o)) (in_turn p [(new_mixer, 0, buffer0); (new_mixer, 40, buffer0)]) = [Ok tt; Ok tt].
Proof.
  cbv zeta. split; [|vm_compute; reflexivity]. exists (amf0_string (str "onMetaData") ++ [3; 0; 0; 9]). split; [reflexivity|].
  exists (str "onMetaData"), [3; 0; 0; 9]. split; [vm_compute; split; reflexivity|]. split; [discriminate|reflexivity].
Qed.
Example C129_witness : starts_with_name (amf0_string (str "onMetaData")).
Proof. exists (str "onMetaData"), []. split; [vm_compute; split; reflexivity|]. split; [discriminate|rewrite app_nil_r; reflexivity]. Qed.
