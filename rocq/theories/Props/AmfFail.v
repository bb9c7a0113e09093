(** Property C198: what the AMF encoders do on writers that fail. *)
From Coq Require Import String.
From Verif Require Import Base.Go Base.GoFacts Base.IO Base.Float64 Proofs.IOFacts Model.AmfTypes Model.Amf3 Model.Amf0 Spec.Amf Spec.AmfRaw Spec.AmfRaw3 Spec.AmfFail
  Proofs.AmfFacts Proofs.Amf0Enc Proofs.Flv Proofs.AmfFail Props.Amf0 Props.AmfRaw Props.AmfRaw3.
Import ListNotations.
Local Open Scope list_scope.
Local Open Scope Z_scope.
Local Ltac Zify.zify_post_hook ::= Z.div_mod_to_equations.

(** Encode and EncodeBatch, of AMF0 and of AMF3: the bytes and answers of C181 and C183 up to the first failing call. *)
Theorem C198_amf0 : forall t, delivers (encode0 t) (fst (written0 t)) (if snd (written0 t) then Ok (counted0 t) else Err EOther).
Proof. intros t. apply plan_of_run; [apply hp_encode0|]. exact (C181_encode t). Qed.
Print Assumptions C198_amf0.
Theorem C198_amf0_batch : forall ts, delivers (encode_batch0 ts) (fst (in_order (map written0 ts))) (if forallb supported ts then Ok tt else Err EOther).
Proof.
  intros ts. apply plan_of_run; [|exact (C181_batch ts)]. induction ts as [|t ts IH]; cbn [encode_batch0]; [apply hp_ret|].
  apply hp_bind; [apply hp_encode0|]. intros _. exact IH.
Qed.
Print Assumptions C198_amf0_batch.
Theorem C198_amf3 : forall t x, go_value t -> written3 t x -> delivers (encode3 t) (fst x) (if snd x then Ok (len (fst x)) else Err EOther).
Proof. intros t x HG HX. apply plan_of_run; [apply hp_encode3|]. intros w HW. exact (C183_encode t x w HG HX HW). Qed.
Print Assumptions C198_amf3.
Theorem C198_amf3_batch : forall ts xs, Forall go_value ts -> Forall2 written3 ts xs ->
  delivers (encode_batch3 ts) (fst (in_order xs)) (if snd (in_order xs) then Ok tt else Err EOther).
Proof.
  intros ts xs HG HX. apply plan_of_run; [|intros w HW; exact (C183_batch ts xs w HG HX HW)]. clear. induction ts as [|t ts IH]; cbn [encode_batch3]; [apply hp_ret|].
  apply hp_bind; [apply hp_encode3|]. intros _. exact IH.
Qed.
Print Assumptions C198_amf3_batch.

(** The other encoders of AMF0. An ECMA array is an object body behind its marker and the number of members. *)
Definition written_ecma (fs : list (bytes * tree)) : bytes * bool :=
  and_then (done (8 :: be32 (len fs))) (and_then (in_order (map (fun p => and_then (done (wire_utf8 (fst p))) (written0 (snd p))) fs)) (done [0; 0; 9])).
Definition counted_ecma (fs : list (bytes * tree)) : Z := 8 + fold_right Z.add 0 (map (fun p => name_count (fst p) + counted0 (snd p)) fs).
Theorem C198_ecma_array : forall fs, delivers (encode_ecma0 fs) (fst (written_ecma fs)) (if snd (written_ecma fs) then Ok (counted_ecma fs) else Err EOther).
Proof.
  intros fs. assert (HP : forall p, In p fs -> has_plan (encode0 (snd p))) by (intros; apply hp_encode0).
  apply plan_of_run.
  - unfold encode_ecma0. apply hp_bind; [apply hp_byte|intros _]. apply hp_bind; [apply hp_write|intros _]. apply hp_bind; [|intros; apply hp_ret].
    apply hp_object. apply forall_map_snd, Forall_forall. exact HP.
  - change (tells (encode_ecma0 fs) (written_ecma fs) (counted_ecma fs)). unfold encode_ecma0, written_ecma, counted_ecma.
    change (done (8 :: be32 (len fs))) with (and_then (done [8]) (done (be32 (len fs)))). rewrite and_assoc. eapply tells_step; [apply write_byte_emits; unfold byte; lia|].
    eapply tells_step; [rewrite be32_u32; apply emits_write|]. rewrite <- (and_nil (and_then _ (done [0; 0; 9]))). eapply tells_bind; [apply (object_tells fs false), Forall_forall; intros p _; apply encode_tells|].
    intros _. eapply tells_eq; [apply tells_ret|reflexivity|lia].
Qed.
Print Assumptions C198_ecma_array.
Theorem C198_markers : delivers encode_undefined0 [6] (Ok 1) /\ delivers encode_unsupported0 [13] (Ok 1) /\
  forall ref, 0 <= ref < 65536 -> delivers (encode_reference0 ref) (7 :: be16 ref) (Ok 3).
Proof.
  assert (X : forall (m : Wm Z) s c, has_plan m -> emits m s c -> delivers m s (Ok c)).
  { intros m s c HP HE. apply plan_of_run; [exact HP|]. intros w HW. destruct (emits_run _ _ _ w HE HW) as (n & E). exists n. exact E. }
  split; [|split].
  - apply X; [apply hp_bind; [apply hp_byte|intros; apply hp_ret]|]. eapply emits_ext; [eapply emits_bind; [apply write_byte_emits; unfold byte; lia|apply emits_ret]|reflexivity|reflexivity].
  - apply X; [apply hp_bind; [apply hp_byte|intros; apply hp_ret]|]. eapply emits_ext; [eapply emits_bind; [apply write_byte_emits; unfold byte; lia|apply emits_ret]|reflexivity|reflexivity].
  - intros ref Hr. apply X; [apply hp_bind; [apply hp_byte|intros _]; apply hp_bind; [apply hp_write|intros; apply hp_ret]|].
    eapply emits_ext; [eapply emits_bind; [apply write_byte_emits; unfold byte; lia|eapply emits_bind; [apply emits_write|apply emits_ret]]| |reflexivity]. reflexivity.
Qed.
Print Assumptions C198_markers.

(** EncodeWithAMF3 and EncodeXmlDocument answer a count of 0 and no error if the first call fails. *)
Theorem C198_with_amf3 : forall t x, go_value t -> written3 t x ->
  delivers_but_first (encode_with_amf3 t) (17 :: fst x) (if snd x then Ok (1 + len (fst x)) else Err EOther).
Proof.
  intros t x HG HX. unfold encode_with_amf3. apply plan_of_run_first.
  - apply hp_bind; [apply hp_encode3|intros; apply hp_ret].
  - intros w HW. exact (C183_within_amf0 t x w HG HX HW).
Qed.
Print Assumptions C198_with_amf3.
Theorem C198_xml_document : forall s, delivers_but_first (encode_xmldoc0 s) (15 :: wire_utf8_long s) (Ok (5 + len s)).
Proof.
  intros s. unfold encode_xmldoc0. apply plan_of_run_first.
  - apply hp_bind; [apply hp_long0|intros; apply hp_ret].
  - intros w HW. destruct (emits_run _ _ _ w (write_byte_emits 15 ltac:(unfold byte; lia)) HW) as [n ->].
    assert (E : emits (wbind (encode_longstring0 s false) (fun n => wret (n + 1))) (wire_utf8_long s) (5 + len s)).
    { unfold encode_longstring0, wire_utf8_long. rewrite be32_u32. eapply emits_ext.
      - eapply emits_bind; [eapply emits_bind with (a := 0); [apply emits_ret|eapply emits_bind; [apply emits_write|eapply emits_bind; [apply emits_write|apply emits_ret]]]|apply emits_ret].
      - cbn [app]. rewrite !app_nil_r. reflexivity.
      - lia. }
    destruct (emits_run _ _ _ (mkW (w_out w ++ [15]) n (w_script w)) E HW) as (n' & E'). exists n'. rewrite E'. cbn [w_out w_script]. rewrite <- app_assoc. reflexivity.
Qed.
Print Assumptions C198_xml_document.

(** So whatever the writer does, it has received a beginning of the full text, and all of it if Encode answered a count. *)
Theorem C198_beginning : forall A (m : Wm A) full r, delivers m full r -> forall w, exists s rest, w_out (fst (m w)) = w_out w ++ s /\ full = s ++ rest /\
  (forall a, snd (m w) = Ok a -> rest = []).
Proof.
  intros A m full r (calls & <- & H) w. destruct (H w) as [H1 H2].
  assert (D : all_work w (length calls) \/ exists i k, fails_first w (length calls) i k).
  { clear. induction (length calls) as [|n [IH|(i & k & I1 & I2 & I3)]].
    - left. intros j Hj. lia.
    - destruct (w_script w (w_calls w + n)) as [k|] eqn:E.
      + right. exists n, k. split; [lia|]. split; [exact E|]. intros j Hj. apply IH, Hj.
      + left. intros j Hj. destruct (Nat.eq_dec j n) as [->|Hn]; [exact E|apply IH; lia].
    - right. exists i, k. split; [lia|]. auto. }
  destruct D as [D|(i & k & D)].
  - rewrite (H1 D). exists (concat calls), []. rewrite app_nil_r. cbn. auto.
  - rewrite (H2 i k D). destruct D as (Hi & _). cbn [fst snd stopped w_out]. exists (concat (firstn i calls) ++ firstn k (nth i calls [])), (skipn k (nth i calls []) ++ concat (skipn (S i) calls)).
    split; [reflexivity|]. split; [|discriminate]. rewrite <- app_assoc, (app_assoc (firstn k _)), firstn_skipn.
    rewrite <- (firstn_skipn i calls) at 1. rewrite concat_app. f_equal. clear - Hi. revert i Hi. induction calls as [|c cs IH]; intros [|i] Hi; cbn [length] in Hi; try lia; [reflexivity|].
    cbn [skipn nth]. apply IH. lia.
Qed.
Print Assumptions C198_beginning.

(** An object with one member on a writer that takes the marker, the key's length and one byte of the key; an XML document
    on a writer that takes nothing. *)
Example C198_example :
  let w := mkW [] 0 (fun n => if Nat.eqb n 2 then Some 1%nat else None) in
  encode0 (TObj [(str "key", TNil)]) w = (mkW [3; 0; 3; 107] 3 (w_script w), Err EWrite) /\ fails_first w 6 2 1 /\
  encode_xmldoc0 (str "<a/>") (mkW [] 0 (fun _ => Some 0%nat)) = (mkW [] 1 (fun _ => Some 0%nat), Ok 0).
Proof.
  cbn zeta. split; [reflexivity|]. split; [|reflexivity]. split; [lia|]. split; [reflexivity|]. intros [|[|j]] Hj; [reflexivity|reflexivity|lia].
Qed.
