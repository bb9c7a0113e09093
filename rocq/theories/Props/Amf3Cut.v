(** Property C184: what AMF3 decoding makes of a document that arrives in chunks (Spec/Amf3Cut.v). *)
From Coq Require Import String.
From Verif Require Import Base.Go Base.GoFacts Base.IO Base.Float64 Proofs.IOFacts Model.AmfTypes Model.Amf3 Model.Amf0 Spec.Amf Spec.AmfDoc Spec.Amf3Doc Spec.Amf3Trunc Spec.Amf3Cut
  Proofs.AmfFacts Proofs.AmfContr Proofs.Amf0RT Proofs.Amf0More Proofs.Amf0Doc Proofs.Amf3Enc Proofs.Amf3RT Proofs.Amf3Doc Proofs.Amf3More Proofs.AmfHeap Proofs.Amf3Trunc Proofs.Amf3Pieces Proofs.Amf3Cut Props.Amf3 Props.Amf3Doc.
Import ListNotations.
Local Open Scope list_scope.
Local Open Scope Z_scope.

Lemma inside_unique k us p m k' m' : inside k us p m -> inside k' us p m' -> k = k' /\ m = m'.
Proof.
  intros (a & s & b & -> & H & ->) (a' & s' & b' & E & H' & ->). apply app_eq_app in E. destruct E as (l & [(-> & E)|(-> & E)]); (destruct l as [|u l]; cbn [app] in E;
    [rewrite app_nil_r in *; injection E as <- <- <-; split; [reflexivity|lia]|injection E as <- E]; rewrite piece_bytes_app, piece_bytes_cons, !len_app in *; pose proof (len_nonneg (piece_bytes l)); exfalso; lia).
Qed.
Lemma same_split (pre post pre' post' : list bytes) : full (pre ++ post) -> pre ++ post = pre' ++ post' -> len (concat pre) = len (concat pre') -> pre = pre' /\ post = post'.
Proof.
  assert (A : forall a l b : list bytes, full ((a ++ l) ++ b) -> len (concat (a ++ l)) = len (concat a) -> l = []).
  { intros a [|c l] b HF L; [reflexivity|]. exfalso. rewrite concat_app, len_app in L. cbn [concat] in L. rewrite len_app in L. pose proof (len_nonneg (concat l)). apply Forall_app in HF. destruct HF as (HF & _). apply Forall_app in HF. destruct HF as (_ & HF). inversion HF as [|? ? N _]; subst. apply pos_len in N. lia. }
  intros HF E L. pose proof E as E'. apply app_eq_app in E'. destruct E' as (l & [(-> & ->)|(-> & ->)]).
  - rewrite (A pre' l post HF L). rewrite app_nil_r. auto.
  - rewrite E in HF. rewrite (A pre l post' HF (eq_sym L)). rewrite app_nil_r. auto.
Qed.
Lemma first_unique us cs k pre post m k' pre' post' m' : full cs -> first_cut us cs k pre post m -> first_cut us cs k' pre' post' m' -> k = k' /\ pre = pre' /\ post = post' /\ m = m'.
Proof.
  intros HF (E & I & K & M) (E' & I' & K' & M'). pose proof (M _ _ _ _ E' I' K'). pose proof (M' _ _ _ _ E I K). subst cs. assert (L : len (concat pre) = len (concat pre')) by lia. destruct (same_split _ _ _ _ HF E' L) as (-> & ->).
  destruct (inside_unique _ _ _ _ _ _ I I'). auto.
Qed.
Lemma uncut_not_first us cs k pre post m : uncut us cs -> first_cut us cs k pre post m -> False.
Proof. intros U (E & I & K & _). destruct (U _ _ _ _ E I) as [-> | ->]; destruct K; discriminate. Qed.
Lemma on_same d cs e : d_r d = mkR cs e false -> on d cs e = d.
Proof. intros H. unfold on. rewrite <- H. destruct d; reflexivity. Qed.

(** ** C184: a document in chunks. If no chunk ends inside a string or inside content, the call is the one on the same bytes in one piece. If the
    first chunk that does ends inside a string, the call is an error. If it ends inside content, the missing bytes of the content are taken to be zeros
    and decoding goes on with the next chunk: the call is the one on the input with the zeros put in. *)
Theorem C184_chunks : forall T us T' d cs e rest, value_pieces T us T' -> tables_are T d -> d_r d = mkR cs e false -> Forall (fun c => c <> []) cs -> concat cs = piece_bytes us ++ rest ->
  (uncut us cs -> exists d' v, decode3 d = (d', Ok v) /\ r_rest (d_r d') = rest /\ tables_are T' d' /\ decode3 (set_r (cont (piece_bytes us ++ rest) e) d) = (set_r (cont rest e) d', Ok v)) /\
  (forall pre post m, first_cut us cs Text pre post m -> snd (decode3 d) = Err EOther) /\
  (forall pre post m, first_cut us cs Content pre post m -> decode3 d = decode3 (set_r (mkR ((concat pre ++ repeat 0 (Z.to_nat m)) :: post) e false) d)) /\
  (uncut us cs \/ exists k pre post m, first_cut us cs k pre post m).
Proof.
  intros T us T' d cs e rest HV HT Hr HF HC.
  assert (HW : (weight us < fuel_for d)%nat) by (unfold fuel_for, r_rest; rewrite Hr; cbn [r_chunks]; rewrite HC, app_length; pose proof (weight_bytes us); lia).
  destruct (proj1 dec3_gets _ _ _ HV (fuel_for d) (fuel_for d) d e (le_n _) HT HW) as (d1 & v & H1 & O).
  assert (NF : snd (decode3 d) <> OutOfFuel) by exact (proj1 (C72_decode_terminates d)).
  pose proof (O cs rest HF HC) as OC. unfold outcome3 in OC. rewrite (on_same _ _ _ Hr) in OC. change (dec3 (fuel_for d) d) with (decode3 d) in OC.
  split; [|split; [|split]].
  - intros U. destruct OC as [(cs1 & E & G & _)|[(pre & post & z & _ & F)|(pre & post & z & _ & F)]]; [|destruct (uncut_not_first _ _ _ _ _ _ U F)..].
    exists (on d1 cs1 e), v. split; [exact E|]. destruct G as (G1 & G2 & _). rewrite HC in G2. apply app_inv_head in G2. split; [symmetry; exact G2|]. split; [exact H1|].
    assert (PB : piece_bytes us <> []) by (intros X; pose proof (value_weight _ _ _ HV); pose proof (weight_bytes us); rewrite X in *; cbn [length] in *; lia).
    assert (FE : fuel_for (set_r (contr (piece_bytes us ++ rest) e) d) = fuel_for d) by (unfold fuel_for; cbn [set_r d_r]; rewrite contr_rest, Hr; unfold r_rest; cbn [r_chunks]; rewrite HC; reflexivity).
    rewrite !cont_contr. unfold decode3. rewrite FE. assert (NB : piece_bytes us ++ rest <> []) by (intros X; apply app_eq_nil in X; tauto).
    assert (EC : contr (piece_bytes us ++ rest) e = mkR [piece_bytes us ++ rest] e false) by (unfold contr; destruct (piece_bytes us ++ rest); [congruence|reflexivity]). rewrite EC.
    assert (FX : full [piece_bytes us ++ rest]) by (constructor; [exact NB|constructor]).
    destruct (O [piece_bytes us ++ rest] rest FX) as [(cs2 & E2 & G & _)|[(pr & po & z & _ & (X & I & _))|(pr & po & z & _ & (X & I & _))]];
      [cbn [concat]; apply app_nil_r| |exfalso; eapply not_in_first; [reflexivity|exact X|exact I]..].
    change (on d [piece_bytes us ++ rest] e) with (set_r (mkR [piece_bytes us ++ rest] e false) d) in E2. rewrite E2. enough (EM : mkR cs2 e false = contr rest e) by (unfold on; rewrite EM; destruct d1; reflexivity). destruct rest as [|z rest].
    + destruct G as (F2 & C2 & _). cbn [concat] in C2. rewrite app_nil_r in C2. apply app_inv_head in C2. destruct cs2 as [|c cs2]; [reflexivity|]. inversion F2; subst. cbn [concat] in C2. symmetry in C2. apply app_eq_nil in C2. tauto.
    + apply goes_one in G; [|discriminate|constructor]. subst cs2. reflexivity.
  - intros pre post m F. destruct OC as [(cs1 & E & G & U)|[(pre' & post' & z & E & F')|(pre' & post' & z & _ & F')]]; [destruct (uncut_not_first _ _ _ _ _ _ U F)|exact E|]. destruct (first_unique _ _ _ _ _ _ _ _ _ _ HF F F') as (X & _). discriminate X.
  - intros pre post m F. destruct OC as [(cs1 & E & G & U)|[(pre' & post' & z & E & F')|(pre' & post' & z & E & F')]]; [destruct (uncut_not_first _ _ _ _ _ _ U F)| |]; destruct (first_unique _ _ _ _ _ _ _ _ _ _ HF F F') as (X & <- & <- & <-); [discriminate X|].
    rewrite E. unfold decode3. symmetry. unfold patch, on in E |- *. apply dec3_fuel.
    + unfold fuel_for. cbn [set_r d_r]. unfold r_rest. rewrite Hr. cbn [r_chunks concat]. destruct F as (-> & _). rewrite concat_app, !app_length. lia.
    + rewrite <- E. exact NF.
  - destruct OC as [(cs1 & _ & _ & U)|[(pre & post & z & _ & F)|(pre & post & z & _ & F)]]; [left; exact U|right; eauto..].
Qed.
Print Assumptions C184_chunks.

(** ** At the very end: content that is cut gives a value of the right length with zeros in it, and no error; the bytes that belong to it are left in
    the input. *)
Theorem C184_last : forall T a s T' d cs e rest pre post m, value_pieces T (a ++ [(Content, s)]) T' -> tables_are T d -> d_r d = mkR cs e false -> Forall (fun c => c <> []) cs ->
  concat cs = piece_bytes (a ++ [(Content, s)]) ++ rest -> first_cut (a ++ [(Content, s)]) cs Content pre post m -> len (piece_bytes a) < len (concat pre) ->
  exists d' v pv, decode3 d = (d', Ok v) /\ r_rest (d_r d') = concat post /\ concat post <> rest /\ unfolds (d_heap d') v pv /\ value3 false T (concat pre ++ repeat 0 (Z.to_nat m)) pv T'.
Proof.
  intros T a s T' d cs e rest pre post m HV HT Hr HF HC HP HL. destruct (C184_chunks T _ T' d cs e rest HV HT Hr HF HC) as (_ & _ & X & _). specialize (X pre post m HP). rewrite X. pose proof HP as (E & I & _).
  assert (EM : m = len (piece_bytes a) + len s - len (concat pre) /\ len (piece_bytes a) < len (concat pre) < len (piece_bytes a) + len s).
  { apply inside_inv in I. destruct I as [I|I]; [apply inside_range in I; lia|]. apply inside_one in I. lia. }
  destruct EM as (EM & RM). rewrite E, concat_app, piece_bytes_app, piece_bytes_cons in HC. change (piece_bytes []) with (@nil Z) in HC. rewrite app_nil_r, <- app_assoc in HC.
  destruct (bytes_prefix (piece_bytes a) (s ++ rest) (concat pre) (concat post) (eq_sym HC) ltac:(lia)) as (x & EX). rewrite EX, <- app_assoc in HC. apply app_inv_head in HC. rewrite EX, len_app in RM, EM.
  destruct (bytes_prefix x (concat post) s rest HC ltac:(lia)) as (y & ->). rewrite <- app_assoc in HC. apply app_inv_head in HC. rewrite len_app in RM, EM. assert (M2 : m = len y) by lia. clear EM. subst m.
  assert (HV2 : value_pieces T (a ++ [(Content, x ++ repeat 0 (length y))]) T').
  { apply (proj1 alike_value _ _ _ HV). apply Forall2_app; [clear; induction a; constructor; [left; reflexivity|assumption]|]. constructor; [|constructor]. right. repeat split. cbn [snd]. rewrite !len_app. unfold len. rewrite repeat_length. reflexivity. }
  assert (PB : piece_bytes (a ++ [(Content, x ++ repeat 0 (length y))]) = concat pre ++ repeat 0 (Z.to_nat (len y))).
  { rewrite piece_bytes_app, piece_bytes_cons. change (piece_bytes []) with (@nil Z). rewrite app_nil_r, app_assoc, EX. f_equal. unfold len. rewrite Nat2Z.id. reflexivity. }
  destruct (proj1 value_join _ _ _ HV2) as (pv & PV). rewrite PB in PV. set (d2 := set_r (mkR ((concat pre ++ repeat 0 (Z.to_nat (len y))) :: post) e false) d).
  assert (FP : full ((concat pre ++ repeat 0 (Z.to_nat (len y))) :: post)).
  { apply (patch_full pre post (len y) cs HF E). intros Z0. rewrite Z0 in HL. change (len (@nil Z)) with 0 in HL. pose proof (len_nonneg (piece_bytes a)). lia. }
  destruct (C184_chunks T _ T' d2 _ e (concat post) HV2 HT eq_refl FP) as (Y & _ & _ & _); [cbn [concat]; rewrite PB; reflexivity|].
  destruct Y as (d3 & v & Y1 & Y2 & Y3 & Y4).
  { intros pr po k z EP IP. exfalso. eapply (not_in_first _ _ [] post pr po); [exact PB|rewrite app_nil_r; exact EP|exact IP]. }
  rewrite PB in Y4. destruct (C126_documents_partial T _ pv T' (set_r (cont ((concat pre ++ repeat 0 (Z.to_nat (len y))) ++ concat post) e) d2) (concat post) e PV HT eq_refl) as (d4 & v4 & Z1 & _ & Z3 & _).
  rewrite Y4 in Z1. injection Z1 as <- <-. exists d3, v, pv. split; [exact Y1|]. split; [exact Y2|]. split; [|split; [exact Z3|exact PV]].
  intros Q. rewrite Q in HC. apply (f_equal len) in HC. rewrite len_app in HC. lia.
Qed.
Print Assumptions C184_last.
(** An array of a byte array and a string. Cut between the pieces it is decoded; cut inside the string it is not; cut inside the byte array the last
    byte of that becomes a zero, and is itself taken for the second member. *)
Definition ex3_pieces : pieces := singles [9] ++ singles [5] ++ singles [1] ++ (singles [12] ++ singles [7] ++ piece Content [1; 2; 3]) ++ (singles [6] ++ singles [5] ++ piece Text [97; 98]) ++ [].
Definition ex3_good : list bytes := [[9]; [5; 1; 12; 7]; [1; 2; 3; 6]; [5; 97; 98; 4]].
Definition ex3_text : list bytes := [[9; 5; 1; 12; 7; 1; 2; 3; 6; 5; 97]; [98; 4]].
Definition ex3_content : list bytes := [[9; 5; 1; 12; 7; 1; 2]; [3; 6; 5; 97]; [98; 4]].
Example C184_example : value_pieces (mkTables [] []) ex3_pieces (mkTables [[97; 98]] []) /\
  snd (decode3 (fresh (mkR ex3_good (eof true) false))) = Ok (VEcma [VBytes [1; 2; 3]; VStr [97; 98]] (Some 0%nat)) /\
  concat ex3_text = piece_bytes ex3_pieces ++ [4] /\ first_cut ex3_pieces ex3_text Text [[9; 5; 1; 12; 7; 1; 2; 3; 6; 5; 97]] [[98; 4]] 1 /\ snd (decode3 (fresh (mkR ex3_text (eof true) false))) = Err EOther /\
  concat ex3_content = piece_bytes ex3_pieces ++ [4] /\ first_cut ex3_pieces ex3_content Content [[9; 5; 1; 12; 7; 1; 2]] [[3; 6; 5; 97]; [98; 4]] 1 /\
  (let (d', r) := decode3 (fresh (mkR ex3_content (eof true) false)) in r = Ok (VEcma [VBytes [1; 2; 0]; VBool true] (Some 0%nat)) /\ r_rest (d_r d') = [6; 5; 97; 98; 4]).
Proof.
  assert (HV : value_pieces (mkTables [] []) ex3_pieces (mkTables [[97; 98]] [])).
  { unfold ex3_pieces. rewrite app_nil_r. apply (vp_array _ [5] (singles [1]) (mkTables [] []) _ 2); [apply (u29_1 5); lia|apply (asp_nil (mkTables [] []) (singles [1]) []); apply vrp_empty; apply (u29_1 1); lia|].
    apply (vsp_cons _ _ (mkTables [] [])); [apply (vp_bytes _ [7] [1; 2; 3]); apply (u29_1 7); lia|]. rewrite <- (app_nil_r (singles [6] ++ _)). apply (vsp_cons _ _ (mkTables [[97; 98]] [])); [|apply vsp_nil].
    apply (vp_string (mkTables [] []) (singles [5] ++ piece Text [97; 98]) [97; 98] [[97; 98]]). apply (vrp_lit [] [97; 98] [5]); [discriminate|apply (u29_1 5); lia]. }
  assert (T0 : forall r, tables_are (mkTables [] []) (fresh r)) by (intros; split; reflexivity).
  assert (L1 : forall a b c : Z, len [a; b; c] = 3) by reflexivity. assert (L2 : forall a b : Z, len [a; b] = 2) by reflexivity.
  assert (FT : first_cut ex3_pieces ex3_text Text [[9; 5; 1; 12; 7; 1; 2; 3; 6; 5; 97]] [[98; 4]] 1).
  { split; [reflexivity|]. split; [exists (singles [9; 5; 1; 12; 7] ++ [(Content, [1; 2; 3])] ++ singles [6; 5]), [97; 98], []; split; [reflexivity|]; vm_compute; repeat split; reflexivity|]. split; [left; reflexivity|].
    intros pre' post' k' m' E I _. destruct pre' as [|c1 [|c2 pre']]; [apply inside_range in I; change (len (concat [])) with 0 in I; lia|injection E as <- _; reflexivity|]. injection E as <- <- _. cbn [concat]. rewrite !len_app. change (len (@nil Z)) with 0. pose proof (len_nonneg (concat pre')). change (len [98; 4]) with 2. lia. }
  assert (FC : first_cut ex3_pieces ex3_content Content [[9; 5; 1; 12; 7; 1; 2]] [[3; 6; 5; 97]; [98; 4]] 1).
  { split; [reflexivity|]. split; [exists (singles [9; 5; 1; 12; 7]), [1; 2; 3], (singles [6; 5] ++ [(Text, [97; 98])]); split; [reflexivity|]; vm_compute; repeat split; reflexivity|]. split; [right; reflexivity|].
    intros pre' post' k' m' E I _. destruct pre' as [|c1 pre']; [apply inside_range in I; change (len (concat [])) with 0 in I; lia|]. injection E as <- _. cbn [concat]. rewrite !len_app. change (len (@nil Z)) with 0. pose proof (len_nonneg (concat pre')). lia. }
  split; [exact HV|]. split; [reflexivity|]. split; [reflexivity|]. split; [exact FT|]. split; [reflexivity|]. split; [reflexivity|]. split; [exact FC|]. vm_compute. split; reflexivity.
Qed.
