(** Property C181: what AMF0 Encode writes and returns for every value. *)
From Coq Require Import String.
From Verif Require Import Base.Go Base.GoFacts Base.IO Base.Float64 Proofs.IOFacts Model.AmfTypes Model.Amf3 Model.Amf0 Spec.Amf Spec.AmfRaw Proofs.AmfFacts Proofs.Amf0Enc Proofs.Flv Props.Amf0.
Import ListNotations.
Local Open Scope list_scope.
Local Open Scope Z_scope.
Local Ltac Zify.zify_post_hook ::= Z.div_mod_to_equations.

(** On a working writer the program writes and answers so. *)
Definition tells (m : Wm Z) (x : bytes * bool) (c : Z) : Prop :=
  forall w, never_fails w -> exists n, m w = (mkW (w_out w ++ fst x) n (w_script w), if snd x then Ok c else Err EOther).
Lemma tells_ret c : tells (wret c) (done []) c.
Proof. intros [o n f] HW. exists n. unfold wret, done. cbn. rewrite app_nil_r. reflexivity. Qed.
Lemma tells_bind m k x c y c' : tells m x c -> (snd x = true -> tells (k c) y c') -> tells (wbind m k) (and_then x y) c'.
Proof.
  intros H1 H2 w HW. destruct (H1 w HW) as (n & E). unfold wbind. rewrite E. unfold and_then. destruct (snd x) eqn:EX; [|exists n; rewrite EX; reflexivity].
  destruct (H2 eq_refl (mkW (w_out w ++ fst x) n (w_script w)) HW) as (n' & E'). exists n'. rewrite E'. cbn [w_out w_script fst snd]. rewrite app_assoc. reflexivity.
Qed.
Lemma tells_emits m s c : emits m s c -> tells m (done s) c.
Proof. intros H w HW. destruct (emits_run _ _ _ w H HW) as (n & E). exists n. exact E. Qed.
Lemma tells_step {A} (m : Wm A) s a (k : A -> Wm Z) y c : emits m s a -> tells (k a) y c -> tells (wbind m k) (and_then (done s) y) c.
Proof.
  intros H1 H2 w HW. destruct (emits_run _ _ _ w H1 HW) as (n & E). unfold wbind. rewrite E.
  destruct (H2 (mkW (w_out w ++ s) n (w_script w)) HW) as (n' & E'). exists n'. rewrite E'. cbn [and_then done w_out w_script fst snd]. rewrite app_assoc. reflexivity.
Qed.
Lemma tells_eq m x c x' c' : tells m x c -> x = x' -> c = c' -> tells m x' c'. Proof. intros H -> ->. exact H. Qed.
Lemma be16_u16 v : be16 (u16 v) = be16 v.
Proof. unfold be16, u16, u8. apply f_equal2; [lia|]. apply f_equal2; [lia|reflexivity]. Qed.
Lemma and_done s x : and_then x (done s) = if snd x then (fst x ++ s, true) else x. Proof. unfold and_then, done. cbn [fst snd]. reflexivity. Qed.
Lemma and_nil x : and_then x (done []) = x. Proof. destruct x as [s []]; unfold and_then, done; cbn [fst snd]; rewrite ?app_nil_r; reflexivity. Qed.
Lemma and_assoc x y z : and_then (and_then x y) z = and_then x (and_then y z).
Proof. destruct x as [s []], y as [s' []], z as [s'' b]; unfold and_then; cbn [fst snd]; rewrite ?app_assoc; reflexivity. Qed.
(** encodeString: the length is cut, the bytes are not. *)
Lemma string_emits s : emits (encode_string0 s false) (wire_utf8 s) (name_count s).
Proof.
  unfold encode_string0, wire_utf8, name_count. change (be16 (len s) ++ s) with ([] ++ be16 (len s) ++ s). eapply emits_bind with (a := 0); [apply emits_ret|]. rewrite be16_u16.
  eapply emits_bind; [apply emits_write|]. eapply emits_ext; [eapply emits_bind; [apply emits_write|apply emits_ret]|apply app_nil_r|]. unfold u16. reflexivity.
Qed.
Lemma long_emits s : emits (encode_longstring0 s true) (12 :: wire_utf8_long s) (5 + len s).
Proof.
  unfold encode_longstring0, wire_utf8_long. change (12 :: be32 (len s) ++ s) with ([12] ++ be32 (len s) ++ s). eapply emits_bind with (a := 1).
  { eapply emits_ext; [eapply emits_bind; [apply write_byte_emits; unfold byte; lia|apply emits_ret]|reflexivity|reflexivity]. }
  rewrite be32_u32. eapply emits_bind; [apply emits_write|]. eapply emits_ext; [eapply emits_bind; [apply emits_write|apply emits_ret]|apply app_nil_r|]. lia.
Qed.
Lemma sum_tells (ms : list (Wm Z)) xs cs : Forall2 (fun m (xc : (bytes * bool) * Z) => tells m (fst xc) (snd xc)) ms (combine xs cs) -> length xs = length ms -> length cs = length ms ->
  tells (w_sum ms) (in_order xs) (fold_right Z.add 0 cs).
Proof.
  revert xs cs. induction ms as [|m ms IH]; intros [|x xs] [|c cs] H L1 L2; cbn [length] in *; try lia; [apply tells_ret|]. cbn [combine] in H. inversion H; subst. cbn [fst snd] in *.
  cbn [w_sum in_order fold_right]. eapply tells_bind; [eassumption|]. intros _. rewrite <- (and_nil (fold_right and_then ([], true) xs)). eapply tells_bind; [apply (IH xs cs); [assumption|lia|lia]|]. intros _. apply tells_ret.
Qed.
Lemma fields_tells (fs : list (bytes * tree)) : Forall (fun p => tells (encode0 (snd p)) (written0 (snd p)) (counted0 (snd p))) fs ->
  tells (encode_fields0 (map (fun p => (fst p, encode0 (snd p))) fs)) (in_order (map (fun p => and_then (done (wire_utf8 (fst p))) (written0 (snd p))) fs))
    (fold_right Z.add 0 (map (fun p => name_count (fst p) + counted0 (snd p)) fs)).
Proof.
  induction 1 as [|[k t] fs HT HF IH]; [apply tells_ret|]. cbn [map encode_fields0 in_order fold_right fst snd] in *. rewrite and_assoc. eapply tells_step; [apply string_emits|].
  eapply tells_bind; [exact HT|]. intros _. fold (in_order (map (fun p => and_then (done (wire_utf8 (fst p))) (written0 (snd p))) fs)). rewrite <- (and_nil (in_order _)). eapply tells_bind; [exact IH|]. intros _. apply tells_ret.
Qed.
Lemma object_tells fs (mk : bool) : Forall (fun p => tells (encode0 (snd p)) (written0 (snd p)) (counted0 (snd p))) fs ->
  tells (encode_object0 (map (fun p => (fst p, encode0 (snd p))) fs) mk) (and_then (done (if mk then [3] else [])) (and_then (in_order (map (fun p => and_then (done (wire_utf8 (fst p))) (written0 (snd p))) fs)) (done [0; 0; 9])))
    ((if mk then 1 else 0) + fold_right Z.add 0 (map (fun p => name_count (fst p) + counted0 (snd p)) fs) + 3).
Proof.
  intros H. unfold encode_object0. eapply tells_step with (a := if mk then 1 else 0).
  { destruct mk; [eapply emits_ext; [eapply emits_bind; [apply write_byte_emits; unfold byte; lia|apply emits_ret]|reflexivity|reflexivity]|apply emits_ret]. }
  eapply tells_bind; [apply fields_tells, H|]. intros _. change (done [0; 0; 9]) with (and_then (done (wire_utf8 [])) (and_then (done [9]) (done []))). eapply tells_step; [apply string_emits|]. eapply tells_step; [apply write_byte_emits; unfold byte; lia|].
  eapply tells_eq; [apply tells_ret|reflexivity|]. change (name_count []) with 2. lia.
Qed.
Lemma array_tells ms xs cs n : len ms = n -> Forall2 (fun m (xc : (bytes * bool) * Z) => tells m (fst xc) (snd xc)) ms (combine xs cs) -> length xs = length ms -> length cs = length ms ->
  tells (encode_strict0 ms) (and_then (done (10 :: be32 n)) (in_order xs)) (5 + fold_right Z.add 0 cs).
Proof.
  intros <- H L1 L2. unfold encode_strict0. change (done (10 :: be32 (len ms))) with (and_then (done [10]) (done (be32 (len ms)))). rewrite and_assoc. eapply tells_step; [apply write_byte_emits; unfold byte; lia|].
  eapply tells_step; [rewrite be32_u32; apply emits_write|]. rewrite <- (and_nil (in_order xs)). eapply tells_bind; [apply sum_tells; eassumption|]. intros _. apply tells_ret.
Qed.
Lemma encode_tells t : tells (encode0 t) (written0 t) (counted0 t).
Proof.
  induction t as [|b|b|w z|w z|s|s|s|l IH|fs IH|ty fs IH|] using tree_ind'; cbn [encode0 written0 counted0].
  - apply tells_emits. apply (encode0_emits TNil I).
  - apply tells_emits. apply (encode0_emits (TBool b) I).
  - apply tells_emits. eapply emits_ext; [apply encode_number_emits|reflexivity|]. cbn [wire0]. rewrite len_cons, len_be64. reflexivity.
  - apply tells_emits. eapply emits_ext; [apply encode_number_emits|reflexivity|]. cbn [wire0]. rewrite len_cons, len_be64. reflexivity.
  - apply tells_emits. eapply emits_ext; [apply encode_number_emits|reflexivity|]. cbn [wire0]. rewrite len_cons, len_be64. reflexivity.
  - apply tells_emits. cbn [wire0]. destruct (len s <=? 65535) eqn:E.
    + eapply emits_ext; [apply (encode_string0_emits s true); lia|reflexivity|]. rewrite len_cons. unfold wire_utf8. rewrite len_app, len_be16. lia.
    + eapply emits_ext; [apply long_emits|reflexivity|]. rewrite len_cons. unfold wire_utf8_long. rewrite len_app, len_be32. lia.
  - apply tells_emits. unfold encode_date0. change (11 :: 0 :: ?x ++ [0; 0]) with ([11] ++ (0 :: x) ++ [0; 0]). eapply emits_bind; [apply write_byte_emits; unfold byte; lia|].
    eapply emits_bind; [apply encode_number_emits|]. eapply emits_ext; [eapply emits_bind; [apply emits_write|apply emits_ret]|reflexivity|reflexivity].
  - eapply tells_eq; [apply (array_tells _ (map (fun b => done (0 :: be64 (f64_of_Z b))) s) (map (fun _ => 9) s) (len s))| |].
    + rewrite len_map. reflexivity.
    + clear. induction s as [|b s IH]; [constructor|]. cbn [map combine]. constructor; [apply tells_emits, encode_number_emits|exact IH].
    + rewrite !map_length. reflexivity.
    + rewrite !map_length. reflexivity.
    + cbn [wire0]. unfold done at 1 3. unfold and_then. cbn [fst snd]. assert (X : in_order (map (fun b => done (0 :: be64 (f64_of_Z b))) s) = done (flat_map (fun b => 0 :: be64 (f64_of_Z b)) s)).
      { clear. induction s as [|b s IH]; [reflexivity|]. cbn [map in_order fold_right flat_map]. fold (in_order (map (fun b => done (0 :: be64 (f64_of_Z b))) s)). rewrite IH. reflexivity. }
      rewrite X. reflexivity.
    + cbn [wire0]. rewrite len_cons, len_app, len_be32. assert (X : len (flat_map (fun b => 0 :: be64 (f64_of_Z b)) s) = fold_right Z.add 0 (map (fun _ => 9) s)).
      { clear. induction s as [|b s IH]; [reflexivity|]. cbn [flat_map map fold_right]. rewrite len_app, len_cons, len_be64, IH. lia. }
      rewrite X. lia.
  - apply (array_tells _ (map written0 l) (map counted0 l) (len l)); [rewrite len_map; reflexivity| |rewrite !map_length; reflexivity|rewrite !map_length; reflexivity].
    induction IH as [|t l HT HF IHl]; [constructor|]. cbn [map combine]. constructor; [exact HT|exact IHl].
  - eapply tells_eq; [apply (object_tells fs true IH)|reflexivity|]. lia.
  - unfold encode_typed0. change (done (16 :: wire_utf8 ty)) with (and_then (done [16]) (done (wire_utf8 ty))). rewrite and_assoc. eapply tells_step; [apply write_byte_emits; unfold byte; lia|].
    eapply tells_step; [apply string_emits|]. rewrite <- (and_nil (and_then _ (done [0; 0; 9]))). eapply tells_bind; [exact (object_tells fs false IH)|]. intros _. eapply tells_eq; [apply tells_ret|reflexivity|]. lia.
  - intros [o n f] HW. exists n. unfold wfail. cbn. rewrite app_nil_r. reflexivity.
Qed.

(** ** C181 *)
Theorem C181_encode : forall t w, never_fails w ->
  exists n, encode0 t w = (mkW (w_out w ++ fst (written0 t)) n (w_script w), if snd (written0 t) then Ok (counted0 t) else Err EOther).
Proof. intros t w HW. exact (encode_tells t w HW). Qed.
Print Assumptions C181_encode.
Lemma and_ok x y : snd (and_then x y) = snd x && snd y. Proof. unfold and_then. destruct (snd x) eqn:E; [reflexivity|exact E]. Qed.
Lemma order_ok l : snd (in_order l) = forallb snd l. Proof. induction l as [|x l IH]; [reflexivity|]. cbn [in_order fold_right forallb]. rewrite and_ok. f_equal. exact IH. Qed.
Lemma forallb_map {A B} (f : B -> bool) (g : A -> B) l : forallb f (map g l) = forallb (fun x => f (g x)) l. Proof. induction l; cbn; congruence. Qed.
Lemma forallb_eq {A} (f g : A -> bool) l : Forall (fun x => f x = g x) l -> forallb f l = forallb g l. Proof. induction 1; cbn; congruence. Qed.
(** It fails exactly if a value of another Go type is inside. *)
Theorem C181_fails_iff : forall t, snd (written0 t) = supported t.
Proof.
  induction t as [|b|b|w z|w z|s|s|s|l IH|fs IH|ty fs IH|] using tree_ind'; try reflexivity; cbn [written0 supported]; rewrite ?and_ok, order_ok, forallb_map; cbn [snd done andb].
  - apply forallb_eq, IH.
  - rewrite andb_true_r. apply forallb_eq. eapply Forall_impl; [|exact IH]. intros [k t] H. exact H.
  - rewrite andb_true_r. apply forallb_eq. eapply Forall_impl; [|exact IH]. intros [k t] H. exact H.
Qed.
Print Assumptions C181_fails_iff.
Lemma and_len x y : snd x = true -> len (fst (and_then x y)) = len (fst x) + len (fst y). Proof. intros H. unfold and_then. rewrite H. cbn [fst]. apply len_app. Qed.
Lemma fields_count fs : Forall (fun p : bytes * tree => supported (snd p) = true -> counted0 (snd p) = len (fst (written0 (snd p))) - 65536 * cut_off (snd p)) fs -> forallb (fun p => supported (snd p)) fs = true ->
  fold_right Z.add 0 (map (fun p => name_count (fst p) + counted0 (snd p)) fs) =
  len (fst (in_order (map (fun p => and_then (done (wire_utf8 (fst p))) (written0 (snd p))) fs))) - 65536 * fold_right Z.add 0 (map (fun p => len (fst p) / 65536 + cut_off (snd p)) fs).
Proof.
  induction 1 as [|[k t] fs HT HF IH]; intros HS; [reflexivity|]. cbn [forallb fst snd] in *. apply andb_prop in HS as [HS1 HS2]. cbn [map fold_right in_order fst snd].
  rewrite and_len by (rewrite and_ok, C181_fails_iff, HS1; reflexivity). rewrite and_len by reflexivity. fold (in_order (map (fun p => and_then (done (wire_utf8 (fst p))) (written0 (snd p))) fs)). rewrite (IH HS2), (HT HS1).
  cbn [done fst]. unfold wire_utf8, name_count. rewrite len_app, len_be16. pose proof (len_nonneg k). lia.
Qed.
(** The count is the number of bytes written, less 65536 for every 65536 bytes of a name. *)
Theorem C181_count : forall t, supported t = true -> counted0 t = len (fst (written0 t)) - 65536 * cut_off t.
Proof.
  induction t as [|b|b|w z|w z|s|s|s|l IH|fs IH|ty fs IH|] using tree_ind'; intros HS; cbn [written0 counted0 cut_off supported] in *; try (cbn [done fst]; lia); try discriminate.
  - cbn [done fst]. rewrite !len_cons, len_app, len_be64. change (len [0; 0]) with 2. lia.
  - rewrite and_len by reflexivity. cbn [done fst]. rewrite len_cons, len_be32. assert (X : fold_right Z.add 0 (map counted0 l) = len (fst (in_order (map written0 l))) - 65536 * fold_right Z.add 0 (map cut_off l)); [|lia].
    revert HS. induction IH as [|t l HT HF IHl]; intros HS; [reflexivity|]. cbn [forallb] in HS. apply andb_prop in HS as [HS1 HS2]. cbn [map fold_right in_order]. rewrite and_len by (rewrite C181_fails_iff; exact HS1). fold (in_order (map written0 l)). rewrite (IHl HS2), (HT HS1). lia.
  - rewrite and_len by reflexivity. rewrite and_len by (rewrite order_ok, forallb_map; rewrite <- HS; apply forallb_eq, Forall_forall; intros [k t] _; rewrite and_ok, C181_fails_iff; reflexivity). rewrite (fields_count _ IH HS). cbn [done fst]. change (len [3]) with 1. change (len [0; 0; 9]) with 3. lia.
  - rewrite and_len by reflexivity. rewrite and_len by (rewrite order_ok, forallb_map; rewrite <- HS; apply forallb_eq, Forall_forall; intros [k t] _; rewrite and_ok, C181_fails_iff; reflexivity). rewrite (fields_count _ IH HS). cbn [done fst]. rewrite len_cons. assert (LT : len (wire_utf8 ty) = 2 + len ty) by (unfold wire_utf8; rewrite len_app, len_be16; reflexivity). rewrite LT. unfold name_count. change (len [0; 0; 9]) with 3. pose proof (len_nonneg ty). lia.
Qed.
Print Assumptions C181_count.
(** For values within the specification's limits these are its layouts. *)
Theorem C181_within_limits : forall t, ok0 t -> written0 t = (wire0 t, true).
Proof.
  intros t Hok. destruct (C95_amf0_wire_format t buffer0 Hok (fun _ => eq_refl)) as (n & E1). destruct (C181_encode t buffer0 (fun _ => eq_refl)) as (n' & E2). rewrite E1 in E2. destruct (written0 t) as [s b]. cbn [fst snd] in E2. injection E2 as E2 _ E3. cbn [app] in E2. destruct b; [|discriminate E3]. subst. reflexivity.
Qed.
Print Assumptions C181_within_limits.
(** EncodeBatch writes the values one after the other, up to the first that fails. *)
Theorem C181_batch : forall ts w, never_fails w ->
  exists n, encode_batch0 ts w = (mkW (w_out w ++ fst (in_order (map written0 ts))) n (w_script w), if forallb supported ts then Ok tt else Err EOther).
Proof.
  induction ts as [|t ts IH]; intros w HW; [exists (w_calls w); destruct w; cbn; rewrite app_nil_r; reflexivity|].
  cbn [encode_batch0 map in_order fold_right forallb]. fold (in_order (map written0 ts)). destruct (C181_encode t w HW) as (n & E). unfold wbind. rewrite E. unfold and_then. rewrite C181_fails_iff. destruct (supported t); [|exists n; reflexivity].
  destruct (IH (mkW (w_out w ++ fst (written0 t)) n (w_script w)) HW) as (n' & E'). exists n'. rewrite E'. cbn [w_out w_script fst andb]. rewrite app_assoc. reflexivity.
Qed.
Print Assumptions C181_batch.
(** An object with a date and then a channel: the object's beginning and the date are written. *)
Example C181_example : written0 (TObj [(str "a", TTime 1); (str "b", TOther); (str "c", TNil)]) = ([3; 0; 1; 97; 11; 0] ++ be64 (f64_of_Z 1000) ++ [0; 0; 0; 1; 98], false) /\
  counted0 (TObj [(str "a", TTime 1)]) = 19.
Proof. split; vm_compute; reflexivity. Qed.
