(** AMF0 documents from readers that return them in chunks. *)
From Verif Require Import Base.Go Base.GoFacts Base.IO Base.Float64 Proofs.IOFacts Model.AmfTypes Model.Amf3 Model.Amf0 Spec.Amf Spec.AmfDoc Spec.AmfCut
  Proofs.AmfFacts Proofs.AmfContr Proofs.Amf0Enc Proofs.Amf0RT Proofs.Amf0Doc Proofs.Amf0Acc Proofs.Amf0Ref Proofs.Amf0Panic.

(** * Chunk boundaries *)
Definition good (cs : list bytes) : Prop := Forall (fun c => c <> []) cs.
Definition bnd (cs : list bytes) (p : Z) : Prop := exists pre post, cs = pre ++ post /\ len (concat pre) = p.
Lemma bnd_cons c cs p : bnd (c :: cs) p <-> p = 0 \/ bnd cs (p - len c).
Proof.
  split.
  - intros (pre & post & E & H). destruct pre as [|c' pre]; [left; rewrite <- H; reflexivity|]. injection E as -> ->. right. exists pre, post. split; [reflexivity|]. cbn [concat] in H. rewrite len_app in H. lia.
  - intros [->|(pre & post & -> & H)]; [exists [], (c :: cs); split; reflexivity|]. exists (c :: pre), post. split; [reflexivity|]. cbn [concat]. rewrite len_app. lia.
Qed.
Lemma bnd_0 cs : bnd cs 0. Proof. exists [], cs. split; reflexivity. Qed.
Lemma bnd_nonneg cs p : bnd cs p -> 0 <= p. Proof. intros (pre & post & _ & <-). apply len_nonneg. Qed.
Lemma cut_bnd cs us : cut_in cs us <-> exists a s b p, us = a ++ (true, s) :: b /\ bnd cs p /\ len (unit_bytes a) < p < len (unit_bytes a) + len s.
Proof.
  split.
  - intros (pre & post & a & s & b & -> & -> & H). exists a, s, b, (len (concat pre)). split; [reflexivity|]. split; [exists pre, post; split; reflexivity|exact H].
  - intros (a & s & b & p & -> & (pre & post & -> & <-) & H). exists pre, post, a, s, b. auto.
Qed.

Definition follows (cs : list bytes) (n : Z) (cs' : list bytes) : Prop :=
  good cs' /\ (exists x, len x = n /\ concat cs = x ++ concat cs') /\ forall p, 0 < p -> (bnd cs' p <-> bnd cs (n + p)).
Lemma follows_refl cs : good cs -> follows cs 0 cs.
Proof. intros H. split; [exact H|]. split; [exists []; split; reflexivity|]. intros p _. replace (0 + p) with p by lia. tauto. Qed.
Lemma follows_trans cs n cs1 m cs2 : 0 <= m -> follows cs n cs1 -> follows cs1 m cs2 -> follows cs (n + m) cs2.
Proof.
  intros Hm (_ & (x & Hx & E) & B) (G & (y & Hy & E2) & B2). split; [exact G|]. split; [exists (x ++ y); rewrite len_app, E, E2, app_assoc; split; [lia|reflexivity]|].
  intros p Hp. rewrite B2, B by lia. replace (n + m + p) with (n + (m + p)) by lia. tauto.
Qed.
Lemma follows_part c cs n : good (c :: cs) -> 0 <= n < len c -> follows (c :: cs) n (drop c n :: cs).
Proof.
  intros HG Hn. inversion HG as [|? ? Hc HG']; subst. assert (HL : len (drop c n) = len c - n) by (unfold drop, len in *; rewrite skipn_length; lia).
  split; [constructor; [intros E; rewrite E in HL; change (len (@nil Z)) with 0 in HL; lia|exact HG']|]. split.
  - exists (take c n). split; [unfold take, len in *; rewrite firstn_length; lia|]. cbn [concat]. rewrite app_assoc, take_drop. reflexivity.
  - intros p Hp. rewrite !bnd_cons, HL. replace (p - (len c - n)) with (n + p - len c) by lia. split; (intros [H|H]; [exfalso; lia|right; exact H]).
Qed.
Lemma follows_whole c cs : good (c :: cs) -> follows (c :: cs) (len c) cs.
Proof.
  intros HG. inversion HG as [|? ? Hc HG']; subst. split; [exact HG'|]. split; [exists c; split; reflexivity|]. intros p Hp. rewrite bnd_cons. replace (len c + p - len c) with p by lia. split; [auto|].
  pose proof (len_nonneg c). intros [H1|H1]; [exfalso; lia|exact H1].
Qed.
Lemma follows_cons c cs n cs' : follows cs (n - len c) cs' -> 0 <= n - len c -> follows (c :: cs) n cs'.
Proof.
  intros (G & (x & Hx & E) & B) Hn. split; [exact G|]. split; [exists (c ++ x); rewrite len_app; cbn [concat]; rewrite E, app_assoc; split; [lia|reflexivity]|].
  intros p Hp. rewrite B, bnd_cons by exact Hp. replace (n + p - len c) with (n - len c + p) by lia. pose proof (len_nonneg c). split; [auto|]. intros [H1|H1]; [exfalso; lia|exact H1].
Qed.

Lemma unit_bytes_app us vs : unit_bytes (us ++ vs) = unit_bytes us ++ unit_bytes vs.
Proof. unfold unit_bytes. rewrite map_app, concat_app. reflexivity. Qed.
Lemma cut_nil cs : ~ cut_in cs [].
Proof. intros (pre & post & a & s & b & _ & E & _). destruct a; discriminate E. Qed.
Lemma cut_app cs us cs' vs : follows cs (len (unit_bytes us)) cs' -> cut_in cs (us ++ vs) <-> cut_in cs us \/ cut_in cs' vs.
Proof.
  intros (_ & _ & B). rewrite !cut_bnd. split.
  - intros (a & s & b & p & E & Hp & H). apply app_eq_app in E. destruct E as (l & [(-> & E)|(-> & ->)]).
    + destruct l as [|u l]; cbn [app] in E.
      * right. subst vs. rewrite app_nil_r in B. exists [], s, b, (p - len (unit_bytes a)). split; [reflexivity|]. change (len (unit_bytes [])) with 0. split; [|lia]. apply B; [lia|]. replace (len (unit_bytes a) + (p - len (unit_bytes a))) with p by lia. exact Hp.
      * injection E as <- ->. left. exists a, s, l, p. auto.
    + right. rewrite unit_bytes_app, len_app in H. exists l, s, b, (p - len (unit_bytes us)). split; [reflexivity|]. pose proof (len_nonneg (unit_bytes l)). split; [|lia]. apply B; [lia|]. replace (len (unit_bytes us) + (p - len (unit_bytes us))) with p by lia. exact Hp.
  - intros [(a & s & b & p & -> & Hp & H)|(a & s & b & p & -> & Hp & H)].
    + exists a, s, (b ++ vs), p. rewrite <- app_assoc. auto.
    + exists (us ++ a), s, b, (len (unit_bytes us) + p). rewrite <- app_assoc, unit_bytes_app, len_app. split; [reflexivity|]. pose proof (len_nonneg (unit_bytes a)). split; [apply B; [lia|exact Hp]|lia].
Qed.
Lemma cut_false cs x : ~ cut_in cs [(false, x)].
Proof. intros (pre & post & a & s & b & _ & E & _). destruct a as [|? [|? a]]; discriminate E. Qed.
Lemma cut_true cs s : cut_in cs [(true, s)] <-> exists p, bnd cs p /\ 0 < p < len s.
Proof.
  rewrite cut_bnd. split.
  - intros (a & s' & b & p & E & Hp & H). destruct a as [|? [|? a]]; try discriminate E. injection E as <- <-. exists p. change (len (unit_bytes [])) with 0 in H. split; [exact Hp|lia].
  - intros (p & Hp & H). exists [], s, [], p. change (len (unit_bytes [])) with 0. repeat split; try assumption; lia.
Qed.

(** * Reading *)
Lemma read_full_cut cs : forall e n acc x rest, good cs -> concat cs = x ++ rest -> len x = n -> 0 < n ->
  exists cs', read_full_chunks e n acc cs = (cs', Ok (acc ++ x)) /\ follows cs n cs'.
Proof.
  induction cs as [|c cs IH]; intros e n acc x rest HG E Hx Hn; [cbn [concat] in E; symmetry in E; apply app_eq_nil in E; destruct E as [-> _]; change (len (@nil Z)) with 0 in Hx; lia|].
  inversion HG as [|? ? Hc HG']; subst. cbn [concat] in E. cbn [read_full_chunks]. destruct (Z.ltb_spec (len c) (len x)) as [HL|HL].
  - apply app_eq_app in E. destruct E as (l & [(-> & E)|(-> & E)]); [rewrite len_app in HL; pose proof (len_nonneg l); lia|]. rewrite len_app in *.
    destruct (IH e (len c + len l - len c) (acc ++ c) l rest HG' E) as (cs' & E1 & F); [lia|lia|]. exists cs'. rewrite E1, <- app_assoc. split; [reflexivity|]. apply follows_cons; [|pose proof (len_nonneg l); lia]. exact F.
  - destruct (Z.eqb_spec (len c) (len x)) as [HE|HE].
    + exists cs. assert (c = x) as ->; [|split; [reflexivity|apply follows_whole, HG]].
      apply app_eq_app in E. destruct E as (l & [(-> & E)|(-> & E)]); rewrite len_app in HE; (destruct l as [|z l]; [rewrite ?app_nil_r; reflexivity|rewrite len_cons in HE; pose proof (len_nonneg l); lia]).
    + exists (drop c (len x) :: cs). split; [|apply follows_part; [exact HG|lia]]. f_equal. f_equal. f_equal.
      apply app_eq_app in E. destruct E as (l & [(-> & E)|(-> & E)]); [|rewrite len_app in HL, HE; pose proof (len_nonneg l); lia].
      unfold take, len. rewrite Nat2Z.id, firstn_app, Nat.sub_diag, firstn_O, app_nil_r, firstn_all. reflexivity.
Qed.
Lemma read_cut cs e s rest : good cs -> concat cs = s ++ rest -> s <> [] \/ rest <> [] \/ e_zero e = false ->
  (exists cs', read (len s) (mkR cs e false) = (mkR cs' e false, Ok s) /\ follows cs (len s) cs' /\ ~ cut_in cs [(true, s)]) \/
  (exists r c, read (len s) (mkR cs e false) = (r, Ok c) /\ len c <> len s /\ cut_in cs [(true, s)]).
Proof.
  intros HG E HZ. destruct (Z.eq_dec (len s) 0) as [H0|H0].
  { assert (s = []) as -> by (destruct s; [reflexivity|rewrite len_cons in H0; pose proof (len_nonneg s); lia]). left. exists cs. cbn [app] in E. split; [|split; [apply follows_refl, HG|]].
    - unfold read. cbn [r_chunks r_end r_with]. change (len (@nil Z)) with 0. cbn [Z.eqb andb]. destruct cs as [|c cs]; [|reflexivity]. cbn [concat] in E. subst rest. destruct HZ as [H|[H|H]]; [congruence..|]. rewrite H. reflexivity.
    - rewrite cut_true. intros (p & _ & H). change (len (@nil Z)) with 0 in H. lia. }
  pose proof (len_nonneg s) as Hs0. unfold read. cbn [r_chunks r_end r_with]. destruct cs as [|c cs]; [cbn [concat] in E; symmetry in E; apply app_eq_nil in E; destruct E as [-> _]; change (len (@nil Z)) with 0 in H0; lia|].
  inversion HG as [|? ? Hc HG']; subst. cbn [concat] in E. replace (len s =? 0) with false by lia. assert (Hcl : 0 < len c) by (destruct c as [|z c]; [congruence|rewrite len_cons; pose proof (len_nonneg c); lia]).
  assert (NC : len s <= len c -> ~ cut_in (c :: cs) [(true, s)]).
  { intros HL. rewrite cut_true. intros (p & Hp & H). rewrite bnd_cons in Hp. destruct Hp as [Hp|Hp]; [lia|]. apply bnd_nonneg in Hp. lia. }
  destruct (Z.leb_spec (len c) (len s)) as [HL|HL].
  - destruct (Z.eq_dec (len c) (len s)) as [HE|HE].
    + left. exists cs. assert (c = s) as ->.
      { apply app_eq_app in E. destruct E as (l & [(-> & E)|(-> & E)]); rewrite len_app in HE; (destruct l as [|z l]; [rewrite ?app_nil_r; reflexivity|rewrite len_cons in HE; pose proof (len_nonneg l); lia]). }
      split; [destruct cs; reflexivity|]. split; [apply follows_whole, HG|apply NC; lia].
    + right. eexists _, c. split; [destruct cs; reflexivity|]. split; [lia|]. apply cut_true. exists (len c). split; [|lia]. apply bnd_cons. right. replace (len c - len c) with 0 by lia. apply bnd_0.
  - left. exists (drop c (len s) :: cs). split; [|split; [apply follows_part; [exact HG|lia]|apply NC; lia]]. f_equal. f_equal.
    apply app_eq_app in E. destruct E as (l & [(-> & E)|(-> & E)]); [|rewrite len_app in HL; pose proof (len_nonneg l); lia]. unfold take, len. rewrite Nat2Z.id, firstn_app, Nat.sub_diag, firstn_O, app_nil_r, firstn_all. reflexivity.
Qed.

(** * Decoding steps *)
Definition gets {A} (m : Dm A) (us : units) (d : dstate) (rest : bytes) (e : rend) (Q : dstate -> A -> Prop) : Prop :=
  forall cs, d_r d = mkR cs e false -> good cs -> concat cs = unit_bytes us ++ rest ->
    (exists d' a cs', m d = (d', Ok a) /\ d_r d' = mkR cs' e false /\ follows cs (len (unit_bytes us)) cs' /\ ~ cut_in cs us /\ Q d' a /\
      m (set_r (contr (unit_bytes us ++ rest) e) d) = (set_r (contr rest e) d', Ok a)) \/
    (exists d', m d = (d', Err EOther) /\ cut_in cs us).
Lemma gets_bind {A B} (m : Dm A) (k : A -> Dm B) us vs d rest e Q R : gets m us d (unit_bytes vs ++ rest) e Q -> (forall d' a, Q d' a -> gets (k a) vs d' rest e R) ->
  gets (dbind m k) (us ++ vs) d rest e R.
Proof.
  intros Hm Hk cs Hr HG HC. rewrite unit_bytes_app, <- app_assoc in HC. destruct (Hm cs Hr HG HC) as [(d1 & a & cs1 & E1 & R1 & F1 & C1 & Q1 & S1)|(d1 & E1 & C1)].
  - pose proof F1 as (G1 & (x & Hx & Ex) & _). rewrite HC in Ex. apply app_eq_app in Ex.
    assert (E2 : concat cs1 = unit_bytes vs ++ rest).
    { destruct Ex as (l & [(E & E2)|(E & E2)]); apply (f_equal len) in E as EL; rewrite len_app in EL; (destruct l as [|z l]; [cbn [app] in E2; congruence|rewrite len_cons in EL; pose proof (len_nonneg l); lia]). }
    unfold dbind. rewrite E1. destruct (Hk d1 a Q1 cs1 R1 G1 E2) as [(d2 & b & cs2 & E3 & R2 & F2 & C2 & Q2 & S2)|(d2 & E3 & C2)].
    + left. exists d2, b, cs2. split; [exact E3|]. split; [exact R2|]. rewrite unit_bytes_app, len_app. split; [eapply follows_trans; [apply len_nonneg|exact F1|exact F2]|]. split; [rewrite (cut_app _ _ _ _ F1); tauto|]. split; [exact Q2|]. rewrite <- app_assoc, S1. exact S2.
    + right. exists d2. split; [exact E3|]. rewrite (cut_app _ _ _ _ F1). tauto.
  - right. exists d1. unfold dbind. rewrite E1. split; [reflexivity|]. apply cut_bnd in C1. destruct C1 as (a & s & b & p & -> & Hp & H). apply cut_bnd. exists a, s, (b ++ vs), p. rewrite <- app_assoc. auto.
Qed.
Lemma gets_pure {A} (m : Dm A) d d' a rest e (Q : dstate -> A -> Prop) : m d = (d', Ok a) -> d_r d' = d_r d -> (forall r, m (set_r r d) = (set_r r d', Ok a)) -> Q d' a -> gets m [] d rest e Q.
Proof. intros E R HS HQ cs Hr HG HC. left. exists d', a, cs. split; [exact E|]. split; [rewrite R; exact Hr|]. split; [apply follows_refl, HG|]. split; [apply cut_nil|]. split; [exact HQ|apply HS]. Qed.
Lemma gets_ext {A} (m : Dm A) us vs d rest e (Q : dstate -> A -> Prop) : vs = us -> gets m us d rest e Q -> gets m vs d rest e Q.
Proof. intros ->. auto. Qed.
Lemma gets_weak {A} (m : Dm A) us d rest e (Q R : dstate -> A -> Prop) : (forall d' a, Q d' a -> R d' a) -> gets m us d rest e Q -> gets m us d rest e R.
Proof. intros H G cs Hr HG HC. destruct (G cs Hr HG HC) as [(d1 & a & cs1 & E1 & R1 & F1 & C1 & Q1 & S1)|X]; [left|right; exact X]. exists d1, a, cs1. repeat (split; [assumption|]). split; [apply H, Q1|exact S1]. Qed.
Definition just {A} (x : A) (d d' : dstate) (a : A) : Prop := a = x /\ d_ref0 d' = d_ref0 d.

Lemma gets_bytes s d rest e : s <> [] \/ rest <> [] \/ e_zero e = false -> gets (read_bytes (len s)) [(true, s)] d rest e (just s d).
Proof.
  intros HZ cs Hr HG HC. unfold unit_bytes in *. cbn [map concat snd] in HC |- *. rewrite app_nil_r in HC |- *. unfold read_bytes. rewrite Hr.
  destruct (read_cut cs e s rest HG HC HZ) as [(cs' & E & F & NC)|(r & c & E & HL & C)]; rewrite E.
  - left. exists (set_r (mkR cs' e false) d), s, cs'. rewrite Z.eqb_refl. split; [reflexivity|]. split; [reflexivity|]. split; [exact F|]. split; [exact NC|]. split; [split; reflexivity|].
    change (read_bytes (len s) (set_r (contr (s ++ rest) e) d) = (set_r (contr rest e) d, Ok s)).
    destruct s as [|z s]; [cbn [app]; change (len (@nil Z)) with 0; rewrite (read_bytes_contr0 _ rest e) by (tauto || reflexivity); reflexivity|]. rewrite (read_bytes_contr _ (z :: s) rest e) by (try reflexivity; rewrite len_cons; pose proof (len_nonneg s); lia). reflexivity.
  - right. exists (set_r r d). replace (len c =? len s) with false by lia. split; [reflexivity|exact C].
Qed.
Lemma gets_byte b d rest e : gets read_byte [(false, [b])] d rest e (just b d).
Proof.
  intros cs Hr HG HC. left. assert (HC' : concat cs = unit_bytes [(true, [b])] ++ rest) by exact HC.
  destruct (gets_bytes [b] d rest e ltac:(left; discriminate) cs Hr HG HC') as [(d1 & a & cs1 & E1 & R1 & F1 & C1 & (-> & Q1) & S1)|(d1 & _ & C1)].
  - exists d1, b, cs1. unfold read_byte. change 1 with (len [b]). unfold dbind. rewrite E1. split; [reflexivity|]. split; [exact R1|]. split; [exact F1|]. split; [apply cut_false|]. split; [split; [reflexivity|exact Q1]|]. unfold unit_bytes in *. cbn [map concat snd app] in S1 |- *. rewrite S1. reflexivity.
  - exfalso. rewrite cut_true in C1. destruct C1 as (p & _ & H). change (len [b]) with 1 in H. lia.
Qed.
Lemma gets_be x d rest e : x <> [] -> gets (read_be (len x)) [(false, x)] d rest e (just (be_val x) d).
Proof.
  intros Hx cs Hr HG HC. left. unfold unit_bytes in *. cbn [map concat snd] in HC |- *. rewrite app_nil_r in HC |- *. unfold read_be, read_full. rewrite Hr. cbn [r_chunks r_end r_with].
  assert (Hp : 0 < len x) by (destruct x as [|z x]; [congruence|rewrite len_cons; pose proof (len_nonneg x); lia]).
  destruct (read_full_cut cs (e_err e) (len x) [] x rest HG HC eq_refl Hp) as (cs' & E & F). rewrite E. cbn [app].
  exists (set_r (mkR cs' e false) d), (be_val x), cs'. split; [reflexivity|]. split; [reflexivity|]. split; [exact F|]. split; [apply cut_false|]. split; [split; reflexivity|].
  change (d_r (set_r (contr (x ++ rest) e) d)) with (contr (x ++ rest) e). change (read_be (len x) (set_r (contr (x ++ rest) e) d) = (set_r (contr rest e) d, Ok (be_val x))). rewrite (read_be_contr _ x rest e) by (assumption || reflexivity). reflexivity.
Qed.
Lemma gets_be16 i d rest e : 0 <= i < 65536 -> gets (read_be 2) [(false, be16 i)] d rest e (just i d).
Proof. intros Hi. change 2 with (len (be16 i)). eapply gets_weak; [|apply gets_be; discriminate]. intros d' a (-> & H). split; [rewrite be_val_be16, Z.mod_small by lia; reflexivity|exact H]. Qed.
Lemma gets_be32 i d rest e : 0 <= i < 4294967296 -> gets (read_be 4) [(false, be32 i)] d rest e (just i d).
Proof. intros Hi. change 4 with (len (be32 i)). eapply gets_weak; [|apply gets_be; discriminate]. intros d' a (-> & H). split; [rewrite be_val_be32, Z.mod_small by lia; reflexivity|exact H]. Qed.
Lemma gets_string s d rest e : len s <= 65535 -> s <> [] \/ rest <> [] \/ e_zero e = false -> gets decode_string0 (utf8_units s) d rest e (just s d).
Proof.
  intros Hl HZ. unfold decode_string0, utf8_units. change [(false, be16 (len s)); (true, s)] with ([(false, be16 (len s))] ++ [(true, s)]).
  eapply gets_bind; [apply gets_be16; pose proof (len_nonneg s); lia|]. intros d1 n (-> & H1). eapply gets_weak; [|apply gets_bytes, HZ]. intros d2 a (-> & H2). split; [reflexivity|congruence].
Qed.
Lemma gets_longstring s d rest e : len s < 4294967296 -> s <> [] \/ rest <> [] \/ e_zero e = false -> gets decode_longstring0 (long_units s) d rest e (just s d).
Proof.
  intros Hl HZ. unfold decode_longstring0, long_units. change [(false, be32 (len s)); (true, s)] with ([(false, be32 (len s))] ++ [(true, s)]).
  eapply gets_bind; [apply gets_be32; pose proof (len_nonneg s); lia|]. intros d1 n (-> & H1). eapply gets_weak; [|apply gets_bytes, HZ]. intros d2 a (-> & H2). split; [reflexivity|congruence].
Qed.

(** * Documents *)
Lemma unit_bytes_doc t : unit_bytes (units0 t) = layout0 t.
Proof.
  assert (F : forall fs, Forall (fun p : bytes * doc0 => unit_bytes (units0 (snd p)) = layout0 (snd p)) fs ->
    unit_bytes (concat (map (fun p => utf8_units (fst p) ++ units0 (snd p)) fs) ++ utf8_units [] ++ [(false, [9])]) = concat (map (fun p => wire_utf8 (fst p) ++ layout0 (snd p)) fs) ++ [0; 0; 9]).
  { intros fs H. rewrite unit_bytes_app. f_equal. induction H as [|p fs Hp _ IH]; [reflexivity|]. cbn [map concat]. rewrite !unit_bytes_app, IH, Hp. f_equal. f_equal. unfold utf8_units, unit_bytes. cbn [map concat snd]. rewrite app_nil_r. reflexivity. }
  assert (C : forall x us, unit_bytes ((false, x) :: us) = x ++ unit_bytes us) by reflexivity.
  assert (U : forall s, unit_bytes (utf8_units s) = wire_utf8 s) by (intros s; unfold utf8_units, unit_bytes; cbn [map concat snd]; rewrite app_nil_r; reflexivity).
  assert (L : forall s, unit_bytes (long_units s) = wire_utf8_long s) by (intros s; unfold long_units, unit_bytes; cbn [map concat snd]; rewrite app_nil_r; reflexivity).
  induction t as [b|b|s|fs IH| | |i|s|n fs IH|l IH|b z|s| |s|ty fs IH] using doc0_ind'; cbn [units0 layout0]; rewrite ?C, ?U, ?L; try reflexivity.
  - rewrite F by exact IH. reflexivity.
  - unfold unit_bytes. cbn [map concat]. apply app_nil_r.
  - rewrite F by exact IH. reflexivity.
  - cbn [app]. f_equal. f_equal. induction IH as [|t l Ht _ IH]; [reflexivity|]. cbn [map concat]. rewrite unit_bytes_app, Ht, IH. reflexivity.
  - rewrite unit_bytes_app, F, U by exact IH. reflexivity.
Qed.

Definition RTC (t : doc0) : Prop := doc_ok true t -> no_avm t -> forall fuel d rest e, refs_in (rlen d) t -> (length (layout0 t) < fuel)%nat -> doc_end rest e t ->
  gets (dec0 fuel) (units0 t) d rest e (fun d' _ => rlen d' = rlen d + slots t).
Definition field_units (fs : list (bytes * doc0)) : units := concat (map (fun p => utf8_units (fst p) ++ units0 (snd p)) fs) ++ utf8_units [] ++ [(false, [9])].
Lemma field_units_nonempty fs rest : unit_bytes (field_units fs) ++ rest <> [].
Proof. unfold field_units. rewrite !unit_bytes_app, <- !app_assoc. intros X. apply app_eq_nil in X. destruct X as [_ X]. discriminate X. Qed.

Lemma fields_cut fs : Forall (fun p => RTC (snd p)) fs -> Forall fgood fs -> forall fuel k loc d rest e, frefs (rlen d) fs ->
  (length (layout_fields fs) < fuel)%nat -> (length fs < k)%nat ->
  gets (obj_loop (dec0 fuel) k loc) (field_units fs) d rest e (fun d' _ => rlen d' = rlen d + fslots fs).
Proof.
  induction fs as [|[key t] fs IH]; intros HRT Hok fuel k loc d rest e HF Hf Hk; (destruct k as [|k]; [cbn [length] in Hk; lia|]); cbn [obj_loop].
  - unfold field_units. cbn [map concat app]. eapply (gets_bind _ _ (utf8_units [])); [apply gets_string; [change (len (@nil Z)) with 0; lia|right; left; discriminate]|].
    intros d1 a (-> & H1). unfold next_byte_must_be. eapply gets_ext; [|eapply (gets_bind _ _ [(false, [9])] []); [apply gets_byte|]]; [reflexivity|]. intros d2 b (-> & H2). eapply gets_pure; [reflexivity|reflexivity|intros r; reflexivity|]. cbn [map fold_right]. rewrite H2, H1. lia.
  - inversion HRT as [|? ? HRt HRl]; inversion Hok as [|? ? [[Hkl Hot] Hno] Hol]; subst. cbn [fst snd] in *. destruct HF as [HF1 HF2].
    unfold layout_fields in Hf. cbn [map concat fst snd] in Hf. fold (layout_fields fs) in Hf. rewrite !app_length in Hf.
    assert (Hkne : key <> []) by (intros ->; unfold len in Hkl; cbn [length] in Hkl; lia).
    apply (gets_ext _ (utf8_units key ++ units0 t ++ [] ++ field_units fs)); [unfold field_units; cbn [map concat fst snd]; rewrite <- !app_assoc; reflexivity|].
    eapply gets_bind; [apply gets_string; [lia|left; exact Hkne]|]. intros d1 a (-> & H1). destruct key as [|c key]; [congruence|].
    eapply gets_bind; [apply (HRt Hot Hno fuel d1)|]; [rewrite H1; exact HF1|lia|left; cbn [app]; apply field_units_nonempty|]. intros d2 v H2. cbn beta in H2.
    eapply (gets_bind _ _ []); [eapply (gets_pure _ _ _ tt); [reflexivity|reflexivity|intros r; reflexivity|]; instantiate (1 := fun d3 _ => rlen d3 = rlen d2); reflexivity|].
    intros d3 u H3. cbn beta in H3. eapply gets_weak; [|apply (IH HRl Hol fuel k loc d3 rest e)]; [|rewrite H3, H2, H1; exact HF2|lia|cbn [length] in Hk; lia].
    intros d4 u4 H4. cbn beta in H4 |- *. rewrite H4, H3, H2, H1. cbn [map fold_right snd]. lia.
Qed.
Lemma object_cut fs : Forall (fun p => RTC (snd p)) fs -> Forall fgood fs -> forall fuel k d rest e, frefs (rlen d + 1) fs ->
  (length (layout_fields fs) < fuel)%nat -> (length fs < k)%nat ->
  gets (decode_object0 (dec0 fuel) k) (field_units fs) d rest e (fun d' _ => rlen d' = rlen d + (1 + fslots fs)).
Proof.
  intros HRT Hok fuel k d rest e HF Hf Hk. unfold decode_object0. apply (gets_ext _ ([] ++ [] ++ field_units fs ++ [])); [rewrite app_nil_r; reflexivity|].
  eapply gets_bind; [eapply (gets_pure _ _ _ (length (d_heap d))); [reflexivity|reflexivity|intros r; reflexivity|]; instantiate (1 := fun d1 _ => rlen d1 = rlen d); reflexivity|]. intros d1 loc H1. cbn beta in H1.
  eapply gets_bind; [eapply (gets_pure _ _ _ tt); [reflexivity|reflexivity|intros r; reflexivity|]; instantiate (1 := fun d2 _ => rlen d2 = rlen d1 + 1); cbn [set_ref0 d_ref0]; rewrite len_app; reflexivity|]. intros d2 u H2. cbn beta in H2.
  eapply gets_bind; [apply (fields_cut fs HRT Hok); [rewrite H2, H1; exact HF|exact Hf|exact Hk]|]. intros d3 u3 H3. cbn beta in H3.
  eapply gets_pure; [reflexivity|reflexivity|intros r; reflexivity|]. rewrite H3, H2, H1. lia.
Qed.
Lemma elems_cut l : Forall RTC l -> Forall (fun t => doc_ok true t /\ no_avm t) l -> forall fuel k d rest e, erefs (rlen d) l -> doc_end rest e (A_strict l) ->
  (length (concat (map layout0 l)) < fuel)%nat -> (length l <= k)%nat ->
  gets (loop_n (dec0 fuel) k (len l)) (concat (map units0 l)) d rest e (fun d' _ => rlen d' = rlen d + eslots l).
Proof.
  induction l as [|t l IH]; intros HRT Hok fuel k d rest e HF Hs Hf Hk.
  - cbn [map concat]. apply (gets_pure _ d d []); [destruct k; reflexivity|reflexivity|intros r; destruct k; reflexivity|]. cbn [map fold_right]. lia.
  - inversion HRT as [|? ? HRt HRl]; inversion Hok as [|? ? [Hot Hno] Hol]; subst. destruct HF as [HF1 HF2]. rewrite len_cons in *. pose proof (len_nonneg l) as Hln.
    destruct k as [|k]; [cbn [length] in Hk; lia|]. cbn [map concat] in Hf |- *. rewrite app_length in Hf. cbn [loop_n]. destruct (Z.leb_spec (1 + len l) 0); [lia|]. replace (1 + len l - 1) with (len l) by lia.
    assert (UB : unit_bytes (concat (map units0 l)) = concat (map layout0 l)).
    { clear. induction l as [|t l IH]; [reflexivity|]. cbn [map concat]. rewrite unit_bytes_app, unit_bytes_doc, IH. reflexivity. }
    apply (gets_ext _ (units0 t ++ concat (map units0 l) ++ [])); [rewrite app_nil_r; reflexivity|].
    eapply gets_bind; [apply (HRt Hot Hno fuel d)|]; [exact HF1|lia| |].
    { rewrite app_nil_r, UB. destruct Hs as [Hs|[Hs|Hs]]; [left; intros X; apply app_eq_nil in X; tauto|right; left; exact Hs|]. destruct l as [|t2 l]; [right; right; exact Hs|].
      left. intros X. apply app_eq_nil in X. destruct X as [X _]. cbn [map concat] in X. apply app_eq_nil in X. destruct X as [X _]. pose proof (layout0_nonempty t2) as Hx. rewrite X in Hx. cbn in Hx. lia. }
    intros d1 v H1. cbn beta in H1. eapply gets_bind; [apply (IH HRl Hol fuel k d1)|]; [rewrite H1; exact HF2| |lia|cbn [length] in Hk; lia|].
    { destruct Hs as [Hs|[Hs|Hs]]; [left; cbn [unit_bytes map concat app]; exact Hs|right; left; exact Hs|]. destruct l as [|t2 l]; [right; right; reflexivity|].
      right; right. destruct (exists_last (l := t2 :: l) ltac:(discriminate)) as (l' & x & El). rewrite El in *. rewrite doc_ends_last. change (t :: l' ++ [x]) with ((t :: l') ++ [x]) in Hs. rewrite doc_ends_last in Hs. exact Hs. }
    intros d2 vs H2. cbn beta in H2. eapply gets_pure; [reflexivity|reflexivity|intros r; reflexivity|]. rewrite H2, H1. cbn [map fold_right]. lia.
Qed.

Ltac first_byte := cbn [dec0 units0]; match goal with |- gets _ ((false, [?b]) :: ?us) _ _ _ _ => apply (gets_ext _ ([(false, [b])] ++ us)); [reflexivity|] end;
  eapply gets_bind; [apply gets_byte|]; intros d1 m (-> & H1); cbn [Z.eqb Pos.eqb orb].
Ltac last_step := eapply gets_pure; [reflexivity|reflexivity|intros r; reflexivity|].
Theorem dec0_cut t : RTC t.
Proof.
  induction t as [b|b|s|fs IH| | |i|s|n fs IH|l IH|b z|s| |s|ty fs IH] using doc0_ind';
    intros Hok Hno [|fuel] d rest e HF Hf Hs; try (exfalso; lia); cbn [doc_ok no_avm layout0] in *;
    change (2 ^ 64) with 18446744073709551616 in *; change (2 ^ 32) with 4294967296 in *; change (2 ^ 16) with 65536 in *.
  - first_byte. apply (gets_ext _ ([(false, be64 b)] ++ [])); [reflexivity|]. eapply gets_bind; [change 8 with (len (be64 b)); apply gets_be; discriminate|]. intros d2 x (_ & H2). last_step. cbn [slots]. rewrite H2, H1. lia.
  - first_byte. apply (gets_ext _ ([(false, [b])] ++ [])); [reflexivity|]. eapply gets_bind; [apply gets_byte|]. intros d2 x (_ & H2). last_step. cbn [slots]. rewrite H2, H1. lia.
  - assert (Hs' : s <> [] \/ rest <> [] \/ e_zero e = false).
    { destruct s; [|left; discriminate]. destruct Hs as [H|[H|H]]; [tauto|tauto|cbn in H; discriminate]. }
    first_byte. apply (gets_ext _ (utf8_units s ++ [])); [rewrite app_nil_r; reflexivity|]. eapply gets_bind; [apply gets_string; [lia|exact Hs']|]. intros d2 x (_ & H2). last_step. cbn [slots]. rewrite H2, H1. lia.
  - pose proof (fgood_of fs Hok Hno) as Hg. cbn [length] in Hf. rewrite app_length in Hf. fold (layout_fields fs) in Hf. cbn [length] in Hf. pose proof (layout_fields_length fs) as Hwl.
    first_byte. fold (field_units fs). apply (gets_ext _ (field_units fs ++ [])); [rewrite app_nil_r; reflexivity|]. eapply gets_bind; [apply (object_cut fs IH Hg); [rewrite H1; exact HF|lia|lia]|]. intros d2 x H2. cbn beta in H2. last_step. cbn [slots]. rewrite H2, H1. lia.
  - first_byte. last_step. cbn [slots]. rewrite H1. lia.
  - first_byte. last_step. cbn [slots]. rewrite H1. lia.
  - destruct Hok as [_ Hi]. cbn [refs_in] in HF. first_byte. unfold decode_reference0. apply (gets_ext _ ([(false, be16 i)] ++ [])); [reflexivity|]. eapply gets_bind; [apply gets_be16, Hi|]. intros d2 x (-> & H2).
    assert (HR : rlen d2 = rlen d) by (rewrite H2, H1; reflexivity). apply (gets_pure _ d2 d2 (nth (Z.to_nat i) (d_ref0 d2) VNil)); [|reflexivity|intros r; cbn [set_r d_ref0]|rewrite HR; cbn [slots]; lia];
    cbn beta; replace (rlen d2 <? i) with false by lia; replace (i =? rlen d2) with false by lia; reflexivity.
  - destruct Hno.
  - destruct Hok as [Hn Hok]. pose proof (fgood_of fs Hok Hno) as Hg. cbn [length] in Hf. rewrite !app_length in Hf. fold (layout_fields fs) in Hf. cbn [length be32] in Hf. pose proof (layout_fields_length fs) as Hwl.
    first_byte. unfold decode_ecma0. fold (field_units fs). apply (gets_ext _ ([(false, be32 n)] ++ field_units fs ++ [])); [rewrite app_nil_r; reflexivity|]. eapply gets_bind; [apply gets_be32, Hn|]. intros d2 x (_ & H2).
    eapply gets_bind; [apply (object_cut fs IH Hg); [rewrite H2, H1; exact HF|lia|lia]|]. intros d3 x3 H3. cbn beta in H3. last_step. cbn [slots]. rewrite H3, H2, H1. lia.
  - destruct Hok as [Hlen Hall]. apply all_of_map in Hall. apply all_of_map in Hno.
    assert (Hg : Forall (fun t => doc_ok true t /\ no_avm t) l) by (rewrite Forall_forall in *; intros x Hx; split; [apply Hall, Hx|apply Hno, Hx]).
    cbn [length] in Hf. rewrite app_length in Hf. cbn [be32 length] in Hf. pose proof (concat_layout_length l) as Hcl.
    first_byte. unfold decode_strict0. apply (gets_ext _ ([(false, be32 (len l))] ++ [] ++ concat (map units0 l) ++ [])); [rewrite app_nil_r; reflexivity|]. eapply gets_bind; [apply gets_be32; pose proof (len_nonneg l); lia|]. intros d2 x (-> & H2).
    eapply gets_bind; [eapply (gets_pure _ _ _ tt); [reflexivity|reflexivity|intros r; reflexivity|]; instantiate (1 := fun d3 _ => rlen d3 = rlen d2 + 1); cbn [set_ref0 d_ref0]; rewrite len_app; reflexivity|]. intros d3 u H3. cbn beta in H3.
    eapply gets_bind; [apply (elems_cut l IH Hg fuel fuel d3)|]; [rewrite H3, H2, H1; exact HF|exact Hs|lia|lia|]. intros d4 vs H4. cbn beta in H4. last_step. cbn [slots]. rewrite H4, H3, H2, H1. lia.
  - first_byte. unfold decode_date0. apply (gets_ext _ ([(false, be64 b)] ++ [(true, be16 z)] ++ [])); [reflexivity|]. eapply gets_bind; [change 8 with (len (be64 b)); apply gets_be; discriminate|]. intros d2 x (_ & H2).
    eapply gets_bind; [change 2 with (len (be16 z)); apply gets_bytes; left; discriminate|]. intros d3 y (_ & H3). last_step. cbn [slots]. rewrite H3, H2, H1. lia.
  - assert (Hs' : s <> [] \/ rest <> [] \/ e_zero e = false).
    { destruct s; [|left; discriminate]. destruct Hs as [H|[H|H]]; [tauto|tauto|cbn in H; discriminate]. }
    first_byte. apply (gets_ext _ (long_units s ++ [])); [rewrite app_nil_r; reflexivity|]. eapply gets_bind; [apply gets_longstring; [lia|exact Hs']|]. intros d2 x (_ & H2). last_step. cbn [slots]. rewrite H2, H1. lia.
  - first_byte. last_step. cbn [slots]. rewrite H1. lia.
  - assert (Hs' : s <> [] \/ rest <> [] \/ e_zero e = false).
    { destruct s; [|left; discriminate]. destruct Hs as [H|[H|H]]; [tauto|tauto|cbn in H; discriminate]. }
    first_byte. apply (gets_ext _ (long_units s ++ [])); [rewrite app_nil_r; reflexivity|]. eapply gets_bind; [apply gets_longstring; [lia|exact Hs']|]. intros d2 x (_ & H2). last_step. cbn [slots]. rewrite H2, H1. lia.
  - destruct Hok as (Htl & Hok). pose proof (fgood_of fs Hok Hno) as Hg. cbn [length] in Hf. rewrite !app_length in Hf. fold (layout_fields fs) in Hf. cbn [length] in Hf. pose proof (layout_fields_length fs) as Hwl.
    first_byte. unfold decode_typed0. fold (field_units fs). apply (gets_ext _ ([] ++ utf8_units ty ++ field_units fs ++ [])); [rewrite app_nil_r; reflexivity|].
    eapply gets_bind; [eapply (gets_pure _ _ _ tt); [reflexivity|reflexivity|intros r; reflexivity|]; instantiate (1 := fun d3 _ => rlen d3 = rlen d1 + 1); cbn [set_ref0 d_ref0]; rewrite len_app; reflexivity|]. intros d2 u H2. cbn beta in H2.
    eapply gets_bind; [apply gets_string; [exact Htl|right; left; rewrite unit_bytes_app, <- app_assoc; apply field_units_nonempty]|]. intros d3 x (-> & H3).
    eapply gets_bind; [apply (object_cut fs IH Hg)|]; [rewrite H3, H2, H1; rewrite refs_typed in HF; replace (rlen d + 1 + 1) with (rlen d + 2) by lia; exact HF|lia|lia|]. intros d4 x4 H4. cbn beta in H4. last_step. cbn [slots]. rewrite H4, H3, H2, H1. lia.
Qed.
