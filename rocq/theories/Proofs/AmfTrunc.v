(** AMF0 documents of which only the beginning is there. *)
From Verif Require Import Base.Go Base.GoFacts Base.IO Base.Float64 Proofs.IOFacts Model.AmfTypes Model.Amf3 Model.Amf0 Spec.Amf Spec.AmfDoc Spec.AmfCut Spec.AmfTrunc
  Proofs.AmfFacts Proofs.AmfContr Proofs.Amf0Enc Proofs.Amf0RT Proofs.Amf0Doc Proofs.Amf0Acc Proofs.Amf0Ref Proofs.Amf0Panic Proofs.AmfCut Proofs.Amf3More.

(** * The error *)
Fixpoint cut_error (e : rend) (us : units) (n : Z) : err :=
  match us with
  | [] => e_err e
  | (one, s) :: us' => if len s <=? n then cut_error e us' (n - len s) else if n =? 0 then e_err e else if one then EOther else early (e_err e) [0]
  end.
Lemma cut_error_0 e us : cut_error e us 0 = e_err e.
Proof. induction us as [|[one s] us IH]; [reflexivity|]. cbn [cut_error]. destruct (Z.leb_spec (len s) 0); [|reflexivity]. pose proof (len_nonneg s). replace (0 - len s) with 0 by lia. exact IH. Qed.
Lemma cut_error_app e us vs : forall n, len (unit_bytes us) <= n -> cut_error e (us ++ vs) n = cut_error e vs (n - len (unit_bytes us)).
Proof.
  induction us as [|[one s] us IH]; intros n H; [cbn [app]; change (len (unit_bytes [])) with 0; f_equal; lia|]. change ((one, s) :: us) with ([(one, s)] ++ us) in H |- *. rewrite unit_bytes_app, len_app in H |- *.
  assert (L : len (unit_bytes [(one, s)]) = len s) by (unfold unit_bytes; cbn [map concat snd]; rewrite app_nil_r; reflexivity). rewrite L in *. pose proof (len_nonneg (unit_bytes us)). cbn [app cut_error]. replace (len s <=? n) with true by lia. rewrite IH by lia. f_equal. lia.
Qed.
Lemma cut_error_short e us vs : forall n, 0 <= n < len (unit_bytes us) -> cut_error e (us ++ vs) n = cut_error e us n.
Proof.
  induction us as [|[one s] us IH]; intros n H; [change (len (unit_bytes [])) with 0 in H; lia|]. change ((one, s) :: us) with ([(one, s)] ++ us) in H. rewrite unit_bytes_app, len_app in H.
  assert (L : len (unit_bytes [(one, s)]) = len s) by (unfold unit_bytes; cbn [map concat snd]; rewrite app_nil_r; reflexivity). rewrite L in *. cbn [app cut_error]. destruct (Z.leb_spec (len s) n); [|reflexivity]. apply IH. lia.
Qed.

(** * Decoding steps *)
Definition tells {A} (n : nat) (m : Dm A) (us : units) (d : dstate) (e : rend) (Q : dstate -> A -> Prop) : Prop :=
  forall s, d_r d = contr s e -> (length s < n)%nat ->
  (forall rest, s = unit_bytes us ++ rest -> (exists d' a, m d = (d', Ok a) /\ d_r d' = contr rest e /\ Q d' a) \/ (rest = [] /\ snd (m d) = Err (e_err e))) /\
  (forall q, unit_bytes us = s ++ q -> q <> [] -> snd (m d) = Err (cut_error e us (len s))).
Lemma len_pos (q : bytes) : q <> [] -> 0 < len q.
Proof. destruct q; [congruence|]. intros _. rewrite len_cons. pose proof (len_nonneg q). lia. Qed.
Lemma tells_bind {A B} n n' (m : Dm A) (k : A -> Dm B) us vs d e Q R : (n <= n' + length (unit_bytes us))%nat -> tells n m us d e Q -> (forall d' a, Q d' a -> tells n' (k a) vs d' e R) ->
  tells n (dbind m k) (us ++ vs) d e R.
Proof.
  intros Hn Hm Hk s Hr Hl. destruct (Hm s Hr Hl) as [HF HC]. split.
  - intros rest E. rewrite unit_bytes_app, <- app_assoc in E. destruct (HF _ E) as [(d1 & a & E1 & R1 & Q1)|[Z1 E1]].
    + unfold dbind. rewrite E1. assert (Hl2 : (length (unit_bytes vs ++ rest) < n')%nat) by (rewrite E, app_length in Hl; lia).
      destruct (Hk d1 a Q1 _ R1 Hl2) as [HF2 _]. apply (HF2 rest eq_refl).
    + right. apply app_eq_nil in Z1. destruct Z1 as [_ ->]. split; [reflexivity|]. unfold dbind. destruct (m d) as [d1 [a|x| |]]; cbn [snd] in *; try discriminate. injection E1 as ->. reflexivity.
  - intros q E HQ. rewrite unit_bytes_app in E. apply app_eq_app in E. destruct E as (l & [(E & E2)|(E & E2)]).
    + destruct (list_eq_dec Z.eq_dec l []) as [->|NL].
      * rewrite app_nil_r in E. cbn [app] in E2. assert (E' : s = unit_bytes us ++ []) by (rewrite app_nil_r; auto). rewrite cut_error_app by (rewrite E; lia). replace (len s - len (unit_bytes us)) with 0 by (rewrite E; lia). rewrite cut_error_0.
        destruct (HF _ E') as [(d1 & a & E1 & R1 & Q1)|[_ E1]].
        -- unfold dbind. rewrite E1. assert (Hl2 : (length (@nil Z) < n')%nat) by (rewrite <- E in Hl; cbn [length]; lia). destruct (Hk d1 a Q1 [] R1 Hl2) as [_ HC2]. rewrite (HC2 q) by (cbn [app]; auto). rewrite cut_error_0. reflexivity.
        -- unfold dbind. destruct (m d) as [d1 [a|x| |]]; cbn [snd] in *; try discriminate. injection E1 as ->. reflexivity.
      * assert (LL := len_pos l NL). rewrite cut_error_short by (rewrite E, len_app; pose proof (len_nonneg s); lia). specialize (HC l E NL). unfold dbind. destruct (m d) as [d1 [a|x| |]]; cbn [snd] in *; try discriminate. injection HC as ->. reflexivity.
    + rewrite E in HF. rewrite cut_error_app by (rewrite E, len_app; pose proof (len_nonneg l); lia). replace (len s - len (unit_bytes us)) with (len l) by (rewrite E, len_app; lia).
      destruct (HF l eq_refl) as [(d1 & a & E1 & R1 & Q1)|[-> E1]].
      * unfold dbind. rewrite E1. assert (Hl2 : (length l < n')%nat) by (rewrite E, app_length in Hl; lia). destruct (Hk d1 a Q1 l R1 Hl2) as [_ HC2]. apply (HC2 q E2 HQ).
      * change (len (@nil Z)) with 0. rewrite cut_error_0. unfold dbind. destruct (m d) as [d1 [a|x| |]]; cbn [snd] in *; try discriminate. injection E1 as ->. reflexivity.
Qed.
Lemma tells_pure {A} n (m : Dm A) d d' a e (Q : dstate -> A -> Prop) : m d = (d', Ok a) -> d_r d' = d_r d -> Q d' a -> tells n m [] d e Q.
Proof. intros E R HQ s Hr _. split; [intros rest ->; left; exists d', a; rewrite R; auto|intros q X NQ; destruct s, q; try discriminate; congruence]. Qed.
Lemma tells_ext {A} n (m : Dm A) us vs d e (Q : dstate -> A -> Prop) : vs = us -> tells n m us d e Q -> tells n m vs d e Q.
Proof. intros ->. auto. Qed.
Lemma tells_weak {A} n (m : Dm A) us d e (Q R : dstate -> A -> Prop) : (forall d' a, Q d' a -> R d' a) -> tells n m us d e Q -> tells n m us d e R.
Proof. intros H G s Hr Hl. destruct (G s Hr Hl) as [HF HC]. split; [|exact HC]. intros rest E. destruct (HF rest E) as [(d1 & a & E1 & R1 & Q1)|X]; [left; exists d1, a; auto|right; exact X]. Qed.
Lemma unit_one one s : unit_bytes [(one, s)] = s.
Proof. unfold unit_bytes. cbn [map concat snd]. apply app_nil_r. Qed.
Lemma cut_one e one s n : 0 <= n < len s -> cut_error e [(one, s)] n = if n =? 0 then e_err e else if one then EOther else early (e_err e) [0].
Proof. intros H. cbn [cut_error]. replace (len s <=? n) with false by lia. reflexivity. Qed.

Lemma tells_bytes n s d e : tells n (read_bytes (len s)) [(true, s)] d e (just s d).
Proof.
  intros u Hr _. rewrite unit_one. split.
  - intros rest ->. destruct (list_eq_dec Z.eq_dec s []) as [->|NS].
    + cbn [app] in Hr. change (len (@nil Z)) with 0. destruct rest as [|z rest].
      * destruct (e_zero e) eqn:HZ; [right|left].
        -- split; [reflexivity|]. unfold read_bytes. rewrite Hr. unfold read, contr. cbn [r_chunks r_end]. rewrite HZ. reflexivity.
        -- rewrite (read_bytes_contr0 d [] e) by auto. eexists _, _. split; [reflexivity|]. split; [reflexivity|split; reflexivity].
      * left. rewrite (read_bytes_contr0 d (z :: rest) e) by (try exact Hr; left; discriminate). eexists _, _. split; [reflexivity|]. split; [reflexivity|split; reflexivity].
    + left. rewrite (read_bytes_contr d s rest e Hr) by (apply len_pos, NS). eexists _, _. split; [reflexivity|]. split; [reflexivity|split; reflexivity].
  - intros q -> NQ. apply len_pos in NQ. rewrite cut_one by (rewrite len_app; pose proof (len_nonneg u); lia). unfold read_bytes. rewrite Hr. destruct (list_eq_dec Z.eq_dec u []) as [->|NU].
    + rewrite read_none by (rewrite len_app; change (len (@nil Z)) with 0; lia). reflexivity.
    + rewrite read_short by (try exact NU; rewrite len_app; lia). cbn [snd]. replace (len u =? len (u ++ q)) with false by (rewrite len_app; lia). apply len_pos in NU. replace (len u =? 0) with false by lia. reflexivity.
Qed.
Lemma tells_byte n b d e : tells n read_byte [(false, [b])] d e (just b d).
Proof.
  intros u Hr Hl. destruct (tells_bytes n [b] d e u Hr Hl) as [HF HC]. rewrite unit_one in *. split.
  - intros rest E. destruct (HF rest E) as [(d1 & a & E1 & R1 & (-> & Q1))|[-> E1]]; [left|right].
    + exists d1, b. unfold read_byte. change 1 with (len [b]). unfold dbind. rewrite E1. split; [reflexivity|]. split; [exact R1|]. split; [reflexivity|exact Q1].
    + split; [reflexivity|]. unfold read_byte. change 1 with (len [b]). unfold dbind. destruct (read_bytes (len [b]) d) as [d1 [a|x| |]]; cbn [snd] in *; try discriminate. injection E1 as ->. reflexivity.
  - intros q E NQ. destruct u as [|x u]; [|exfalso; destruct u; [|discriminate]; cbn [app] in E; congruence]. specialize (HC q E NQ). change (len (@nil Z)) with 0 in *. rewrite cut_error_0 in *.
    unfold read_byte. change 1 with (len [b]). unfold dbind. destruct (read_bytes (len [b]) d) as [d1 [a|x| |]]; cbn [snd] in *; try discriminate. injection HC as ->. reflexivity.
Qed.
Lemma tells_be n x d e : x <> [] -> tells n (read_be (len x)) [(false, x)] d e (just (be_val x) d).
Proof.
  intros Hx u Hr _. rewrite unit_one. apply len_pos in Hx. split.
  - intros rest ->. left. rewrite (read_be_contr d x rest e Hr Hx). eexists _, _. split; [reflexivity|]. split; [reflexivity|split; reflexivity].
  - intros q E NQ. apply len_pos in NQ. assert (LX : len x = len u + len q) by (rewrite E, len_app; reflexivity). rewrite cut_one by (pose proof (len_nonneg u); lia). unfold read_be, read_full. rewrite Hr. unfold contr. cbn [r_chunks r_end r_with]. destruct u as [|z u]; [reflexivity|].
    cbn [read_full_chunks]. replace (len (z :: u) <? len x) with true by lia. cbn [snd app]. pose proof (len_nonneg u). rewrite len_cons. replace (1 + len u =? 0) with false by lia. reflexivity.
Qed.
Lemma tells_be16 n i d e : 0 <= i < 65536 -> tells n (read_be 2) [(false, be16 i)] d e (just i d).
Proof. intros Hi. change 2 with (len (be16 i)). eapply tells_weak; [|apply tells_be; discriminate]. intros d' a (-> & H). split; [rewrite be_val_be16, Z.mod_small by lia; reflexivity|exact H]. Qed.
Lemma tells_be32 n i d e : 0 <= i < 4294967296 -> tells n (read_be 4) [(false, be32 i)] d e (just i d).
Proof. intros Hi. change 4 with (len (be32 i)). eapply tells_weak; [|apply tells_be; discriminate]. intros d' a (-> & H). split; [rewrite be_val_be32, Z.mod_small by lia; reflexivity|exact H]. Qed.
Lemma tells_string n s d e : len s <= 65535 -> tells n decode_string0 (utf8_units s) d e (just s d).
Proof.
  intros Hl. unfold decode_string0, utf8_units. change [(false, be16 (len s)); (true, s)] with ([(false, be16 (len s))] ++ [(true, s)]).
  eapply (tells_bind n n); [lia|apply tells_be16; pose proof (len_nonneg s); lia|]. intros d1 k (-> & H1). eapply tells_weak; [|apply tells_bytes]. intros d2 a (-> & H2). split; [reflexivity|congruence].
Qed.
Lemma tells_longstring n s d e : len s < 4294967296 -> tells n decode_longstring0 (long_units s) d e (just s d).
Proof.
  intros Hl. unfold decode_longstring0, long_units. change [(false, be32 (len s)); (true, s)] with ([(false, be32 (len s))] ++ [(true, s)]).
  eapply (tells_bind n n); [lia|apply tells_be32; pose proof (len_nonneg s); lia|]. intros d1 k (-> & H1). eapply tells_weak; [|apply tells_bytes]. intros d2 a (-> & H2). split; [reflexivity|congruence].
Qed.

(** * Documents *)
Definition RTT (t : doc0) : Prop := doc_ok true t -> no_avm t -> forall fuel n d e, refs_in (rlen d) t -> (n <= fuel)%nat ->
  tells n (dec0 fuel) (units0 t) d e (fun d' _ => rlen d' = rlen d + slots t).
Lemma utf8_long (s : bytes) : (2 <= length (unit_bytes (utf8_units s)))%nat.
Proof. unfold utf8_units, unit_bytes. cbn [map concat snd be16 app length]. lia. Qed.
Lemma doc_long t : (1 <= length (unit_bytes (units0 t)))%nat.
Proof. rewrite unit_bytes_doc. apply layout0_nonempty. Qed.
Lemma fields_tell fs : Forall (fun p => RTT (snd p)) fs -> Forall fgood fs -> forall fuel k n loc d e, frefs (rlen d) fs ->
  (n <= fuel)%nat -> (n <= k)%nat -> tells n (obj_loop (dec0 fuel) k loc) (field_units fs) d e (fun d' _ => rlen d' = rlen d + fslots fs).
Proof.
  induction fs as [|[key t] fs IH]; intros HRT Hok fuel k n loc d e HF Hf Hk; (destruct k as [|k]; [intros s _ Hs; lia|]); cbn [obj_loop].
  - unfold field_units. cbn [map concat app]. eapply (tells_bind n n _ _ (utf8_units [])); [lia|apply tells_string; change (len (@nil Z)) with 0; lia|].
    intros d1 a (-> & H1). unfold next_byte_must_be. eapply tells_ext; [|eapply (tells_bind n n _ _ [(false, [9])] []); [lia|apply tells_byte|]]; [reflexivity|]. intros d2 b (-> & H2). eapply tells_pure; [reflexivity|reflexivity|]. cbn [map fold_right]. rewrite H2, H1. lia.
  - inversion HRT as [|? ? HRt HRl]; inversion Hok as [|? ? [[Hkl Hot] Hno] Hol]; subst. cbn [fst snd] in *. destruct HF as [HF1 HF2].
    assert (Hkne : key <> []) by (intros ->; unfold len in Hkl; cbn [length] in Hkl; lia).
    apply (tells_ext _ _ (utf8_units key ++ units0 t ++ [] ++ field_units fs)); [unfold field_units; cbn [map concat fst snd]; rewrite <- !app_assoc; reflexivity|].
    eapply (tells_bind n (n - 2)); [pose proof (utf8_long key); lia|apply tells_string; lia|]. intros d1 a (-> & H1). destruct key as [|c key]; [congruence|].
    eapply (tells_bind (n - 2) (n - 2)); [lia|apply (HRt Hot Hno fuel _ d1)|]; [rewrite H1; exact HF1|lia|]. intros d2 v H2. cbn beta in H2.
    eapply (tells_bind (n - 2) (n - 2) _ _ []); [lia|eapply (tells_pure _ _ _ _ tt); [reflexivity|reflexivity|]; instantiate (1 := fun d3 _ => rlen d3 = rlen d2); reflexivity|].
    intros d3 u H3. cbn beta in H3. eapply tells_weak; [|apply (IH HRl Hol fuel k (n - 2)%nat loc d3 e)]; [|rewrite H3, H2, H1; exact HF2|lia|lia].
    intros d4 u4 H4. cbn beta in H4 |- *. rewrite H4, H3, H2, H1. cbn [map fold_right snd]. lia.
Qed.
Lemma object_tells fs : Forall (fun p => RTT (snd p)) fs -> Forall fgood fs -> forall fuel k n d e, frefs (rlen d + 1) fs ->
  (n <= fuel)%nat -> (n <= k)%nat -> tells n (decode_object0 (dec0 fuel) k) (field_units fs) d e (fun d' _ => rlen d' = rlen d + (1 + fslots fs)).
Proof.
  intros HRT Hok fuel k n d e HF Hf Hk. unfold decode_object0. apply (tells_ext _ _ ([] ++ [] ++ field_units fs ++ [])); [rewrite app_nil_r; reflexivity|].
  eapply (tells_bind n n); [lia|eapply (tells_pure _ _ _ _ (length (d_heap d))); [reflexivity|reflexivity|]; instantiate (1 := fun d1 _ => rlen d1 = rlen d); reflexivity|]. intros d1 loc H1. cbn beta in H1.
  eapply (tells_bind n n); [lia|eapply (tells_pure _ _ _ _ tt); [reflexivity|reflexivity|]; instantiate (1 := fun d2 _ => rlen d2 = rlen d1 + 1); cbn [set_ref0 d_ref0]; rewrite len_app; reflexivity|]. intros d2 u H2. cbn beta in H2.
  eapply (tells_bind n n); [lia|apply (fields_tell fs HRT Hok); [rewrite H2, H1; exact HF|exact Hf|exact Hk]|]. intros d3 u3 H3. cbn beta in H3.
  eapply tells_pure; [reflexivity|reflexivity|]. rewrite H3, H2, H1. lia.
Qed.
Lemma elems_tell l : Forall RTT l -> Forall (fun t => doc_ok true t /\ no_avm t) l -> forall fuel k n d e, erefs (rlen d) l ->
  (n <= fuel)%nat -> (n <= k)%nat -> tells n (loop_n (dec0 fuel) k (len l)) (concat (map units0 l)) d e (fun d' _ => rlen d' = rlen d + eslots l).
Proof.
  induction l as [|t l IH]; intros HRT Hok fuel k n d e HF Hf Hk.
  - cbn [map concat]. apply (tells_pure _ _ d d []); [destruct k; reflexivity|reflexivity|]. cbn [map fold_right]. lia.
  - inversion HRT as [|? ? HRt HRl]; inversion Hok as [|? ? [Hot Hno] Hol]; subst. destruct HF as [HF1 HF2]. rewrite len_cons in *. pose proof (len_nonneg l) as Hln.
    destruct k as [|k]; [intros s _ Hs; lia|]. cbn [map concat loop_n]. destruct (Z.leb_spec (1 + len l) 0); [lia|]. replace (1 + len l - 1) with (len l) by lia.
    apply (tells_ext _ _ (units0 t ++ concat (map units0 l) ++ [])); [rewrite app_nil_r; reflexivity|].
    eapply (tells_bind n (n - 1)); [pose proof (doc_long t); lia|apply (HRt Hot Hno fuel _ d)|]; [exact HF1|lia|].
    intros d1 v H1. cbn beta in H1. eapply (tells_bind (n - 1) (n - 1)); [lia|apply (IH HRl Hol fuel k _ d1)|]; [rewrite H1; exact HF2|lia|lia|].
    intros d2 vs H2. cbn beta in H2. eapply tells_pure; [reflexivity|reflexivity|]. rewrite H2, H1. cbn [map fold_right]. lia.
Qed.

Ltac byte_first := cbn [dec0 units0]; match goal with |- tells ?n _ ((false, [?b]) :: ?us) _ _ _ => apply (tells_ext _ _ ([(false, [b])] ++ us)); [reflexivity|] end;
  match goal with |- tells ?n _ _ _ _ _ => eapply (tells_bind n (n - 1)); [cbn [unit_bytes map concat snd app length]; lia|apply tells_byte|] end; intros d1 m (-> & H1); cbn [Z.eqb Pos.eqb orb].
Ltac last_tell := eapply tells_pure; [reflexivity|reflexivity|].
Ltac same_bind := match goal with |- tells ?n _ _ _ _ _ => eapply (tells_bind n n); [lia| |] end.
Theorem dec0_tells t : RTT t.
Proof.
  induction t as [b|b|s|fs IH| | |i|s|k fs IH|l IH|b z|s| |s|ty fs IH] using doc0_ind';
    intros Hok Hno [|fuel] n d e HF Hf; try (intros s0 _ Hs0; exfalso; lia); cbn [doc_ok no_avm layout0] in *;
    change (2 ^ 64) with 18446744073709551616 in *; change (2 ^ 32) with 4294967296 in *; change (2 ^ 16) with 65536 in *.
  - byte_first. apply (tells_ext _ _ ([(false, be64 b)] ++ [])); [reflexivity|]. same_bind; [change 8 with (len (be64 b)); apply tells_be; discriminate|]. intros d2 x (_ & H2). last_tell. cbn [slots]. rewrite H2, H1. lia.
  - byte_first. apply (tells_ext _ _ ([(false, [b])] ++ [])); [reflexivity|]. same_bind; [apply tells_byte|]. intros d2 x (_ & H2). last_tell. cbn [slots]. rewrite H2, H1. lia.
  - byte_first. apply (tells_ext _ _ (utf8_units s ++ [])); [rewrite app_nil_r; reflexivity|]. same_bind; [apply tells_string; lia|]. intros d2 x (_ & H2). last_tell. cbn [slots]. rewrite H2, H1. lia.
  - pose proof (fgood_of fs Hok Hno) as Hg. byte_first. fold (field_units fs). apply (tells_ext _ _ (field_units fs ++ [])); [rewrite app_nil_r; reflexivity|]. same_bind; [apply (object_tells fs IH Hg); [rewrite H1; exact HF|lia|lia]|]. intros d2 x H2. cbn beta in H2. last_tell. cbn [slots]. rewrite H2, H1. lia.
  - byte_first. last_tell. cbn [slots]. rewrite H1. lia.
  - byte_first. last_tell. cbn [slots]. rewrite H1. lia.
  - destruct Hok as [_ Hi]. cbn [refs_in] in HF. byte_first. unfold decode_reference0. apply (tells_ext _ _ ([(false, be16 i)] ++ [])); [reflexivity|]. same_bind; [apply tells_be16, Hi|]. intros d2 x (-> & H2).
    assert (HR : rlen d2 = rlen d) by (rewrite H2, H1; reflexivity). apply (tells_pure _ _ d2 d2 (nth (Z.to_nat i) (d_ref0 d2) VNil)); [|reflexivity|rewrite HR; cbn [slots]; lia].
    cbn beta. replace (rlen d2 <? i) with false by lia. replace (i =? rlen d2) with false by lia. reflexivity.
  - destruct Hno.
  - destruct Hok as [Hn Hok]. pose proof (fgood_of fs Hok Hno) as Hg. byte_first. unfold decode_ecma0. fold (field_units fs). apply (tells_ext _ _ ([(false, be32 k)] ++ field_units fs ++ [])); [rewrite app_nil_r; reflexivity|]. same_bind; [apply tells_be32, Hn|]. intros d2 x (_ & H2).
    same_bind; [apply (object_tells fs IH Hg); [rewrite H2, H1; exact HF|lia|lia]|]. intros d3 x3 H3. cbn beta in H3. last_tell. cbn [slots]. rewrite H3, H2, H1. lia.
  - destruct Hok as [Hlen Hall]. apply all_of_map in Hall. apply all_of_map in Hno.
    assert (Hg : Forall (fun t => doc_ok true t /\ no_avm t) l) by (rewrite Forall_forall in *; intros x Hx; split; [apply Hall, Hx|apply Hno, Hx]).
    byte_first. unfold decode_strict0. apply (tells_ext _ _ ([(false, be32 (len l))] ++ [] ++ concat (map units0 l) ++ [])); [rewrite app_nil_r; reflexivity|]. same_bind; [apply tells_be32; pose proof (len_nonneg l); lia|]. intros d2 x (-> & H2).
    same_bind; [eapply (tells_pure _ _ _ _ tt); [reflexivity|reflexivity|]; instantiate (1 := fun d3 _ => rlen d3 = rlen d2 + 1); cbn [set_ref0 d_ref0]; rewrite len_app; reflexivity|]. intros d3 u H3. cbn beta in H3.
    same_bind; [apply (elems_tell l IH Hg fuel fuel _ d3)|]; [rewrite H3, H2, H1; exact HF|lia|lia|]. intros d4 vs H4. cbn beta in H4. last_tell. cbn [slots]. rewrite H4, H3, H2, H1. lia.
  - byte_first. unfold decode_date0. apply (tells_ext _ _ ([(false, be64 b)] ++ [(true, be16 z)] ++ [])); [reflexivity|]. same_bind; [change 8 with (len (be64 b)); apply tells_be; discriminate|]. intros d2 x (_ & H2).
    same_bind; [change 2 with (len (be16 z)); apply tells_bytes|]. intros d3 y (_ & H3). last_tell. cbn [slots]. rewrite H3, H2, H1. lia.
  - byte_first. apply (tells_ext _ _ (long_units s ++ [])); [rewrite app_nil_r; reflexivity|]. same_bind; [apply tells_longstring; lia|]. intros d2 x (_ & H2). last_tell. cbn [slots]. rewrite H2, H1. lia.
  - byte_first. last_tell. cbn [slots]. rewrite H1. lia.
  - byte_first. apply (tells_ext _ _ (long_units s ++ [])); [rewrite app_nil_r; reflexivity|]. same_bind; [apply tells_longstring; lia|]. intros d2 x (_ & H2). last_tell. cbn [slots]. rewrite H2, H1. lia.
  - destruct Hok as (Htl & Hok). pose proof (fgood_of fs Hok Hno) as Hg. byte_first. unfold decode_typed0. fold (field_units fs). apply (tells_ext _ _ ([] ++ utf8_units ty ++ field_units fs ++ [])); [rewrite app_nil_r; reflexivity|].
    same_bind; [eapply (tells_pure _ _ _ _ tt); [reflexivity|reflexivity|]; instantiate (1 := fun d3 _ => rlen d3 = rlen d1 + 1); cbn [set_ref0 d_ref0]; rewrite len_app; reflexivity|]. intros d2 u H2. cbn beta in H2.
    same_bind; [apply tells_string; exact Htl|]. intros d3 x (-> & H3).
    same_bind; [apply (object_tells fs IH Hg)|]; [rewrite H3, H2, H1; rewrite refs_typed in HF; replace (rlen d + 1 + 1) with (rlen d + 2) by lia; exact HF|lia|lia|]. intros d4 x4 H4. cbn beta in H4. last_tell. cbn [slots]. rewrite H4, H3, H2, H1. lia.
Qed.
