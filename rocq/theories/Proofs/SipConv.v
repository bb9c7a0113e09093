(** Proofs about programs on addresses with common argument maps. *)
From Verif Require Import Base.Go Base.GoFacts Base.IO Base.Text Model.Sip Model.SipConv Spec.SipConv Proofs.Text Proofs.SipArgs.
Import ListNotations.
Local Open Scope nat_scope.

Lemma snoc_eq {A} (l l' : list A) x y : l ++ [x] = l' ++ [y] -> l = l' /\ x = y.
Proof. apply app_inj_tail. Qed.
Lemma snoc_nil {A} (l : list A) x : l ++ [x] = [] -> False.
Proof. destruct l; discriminate. Qed.
Lemma run_snoc os : forall h o, addr_run h (os ++ [o]) = bind (addr_run h os) (fun h' => addr_step h' o).
Proof.
  induction os as [|p os IH]; intros h o; cbn [app addr_run bind].
  - destruct (addr_step h o); reflexivity.
  - destruct (addr_step h p); cbn [bind]; [apply IH|reflexivity..].
Qed.
(** Addresses a call makes. *)
Definition news (o : addr_op) : nat := match o with ParseUser _ | ParseRequest _ | Convert _ => 1 | _ => 0 end.
Lemma made_snoc os o : made (os ++ [o]) = news o + made os.
Proof. induction os as [|p os IH]; [destruct o; reflexivity|]. cbn [app made]. rewrite IH. destruct p, o; cbn; lia. Qed.

(** ** Origins *)
Lemma comes_inv os o i r : comes_from (os ++ [o]) i r ->
  comes_from os i r \/ (i = made os /\ match o with ParseUser _ | ParseRequest _ => r = made os | Convert j => comes_from os j r | _ => False end).
Proof.
  intros H. inversion H as [? t E|? t E|? j ? HC E|? ? ? ? HC E]; apply snoc_eq in E as [-> <-]; auto.
Qed.
Lemma comes_lt os : forall i r, comes_from os i r -> i < made os /\ r <= i.
Proof.
  induction os as [|o os IH] using rev_ind; intros i r H.
  - inversion H as [? ? E|? ? E|? ? ? ? E|? ? ? ? ? E]; exfalso; eapply snoc_nil; exact E.
  - rewrite made_snoc. destruct (comes_inv _ _ _ _ H) as [C|[-> C]]; [destruct (IH _ _ C); split; lia|].
    destruct o; cbn [news]; try contradiction; try (subst; split; lia). destruct (IH _ _ C). split; lia.
Qed.
Lemma comes_unique os : forall i r r', comes_from os i r -> comes_from os i r' -> r = r'.
Proof.
  induction os as [|o os IH] using rev_ind; intros i r r' H H'.
  - inversion H as [? ? E|? ? E|? ? ? ? E|? ? ? ? ? E]; exfalso; eapply snoc_nil; exact E.
  - destruct (comes_inv _ _ _ _ H) as [C|[-> C]], (comes_inv _ _ _ _ H') as [C'|[E' C']].
    + eapply IH; eassumption.
    + apply comes_lt in C. lia.
    + apply comes_lt in C'. lia.
    + destruct o; try contradiction; try congruence. eapply IH; eassumption.
Qed.
Lemma comes_ex os : legal os -> forall i, i < made os -> exists r, comes_from os i r.
Proof.
  intros L. induction L as [|os o L IH A]; intros i Hi; [cbn in Hi; lia|]. rewrite made_snoc in Hi.
  destruct (lt_dec i (made os)) as [Hl|Hl]; [destruct (IH i Hl) as [r C]; exists r; now apply CF_keep|].
  destruct o; cbn [news] in Hi; try lia; replace i with (made os) by lia.
  - eexists. apply CF_user.
  - eexists. apply CF_request.
  - cbn in A. destruct (IH _ A) as [r C]. exists r. now apply CF_convert.
Qed.
Lemma related_lt os i j : related os i j -> i < made os /\ j < made os.
Proof. intros (r & A & B). apply comes_lt in A, B. tauto. Qed.
Lemma related_sym os i j : related os i j -> related os j i.
Proof. intros (r & A & B). exists r. tauto. Qed.
Lemma related_refl os i : legal os -> i < made os -> related os i i.
Proof. intros L H. destruct (comes_ex os L i H) as [r C]. exists r. tauto. Qed.
Lemma related_dec os i j : legal os -> related os i j \/ ~ related os i j.
Proof.
  intros L. destruct (lt_dec i (made os)) as [Hi|Hi]; [|right; intros H; apply related_lt in H; lia].
  destruct (lt_dec j (made os)) as [Hj|Hj]; [|right; intros H; apply related_lt in H; lia].
  destruct (comes_ex os L i Hi) as [r C], (comes_ex os L j Hj) as [r' C']. destruct (Nat.eq_dec r r') as [->|N]; [left; exists r'; tauto|].
  right. intros (q & X & Y). apply N. rewrite (comes_unique _ _ _ _ C X). exact (comes_unique _ _ _ _ Y C').
Qed.
Lemma related_old os o i j : i < made os -> j < made os -> (related (os ++ [o]) i j <-> related os i j).
Proof.
  intros Hi Hj. split; intros (r & A & B).
  - exists r. destruct (comes_inv _ _ _ _ A) as [C|[-> C]]; [|lia]. destruct (comes_inv _ _ _ _ B) as [D|[-> D]]; [|lia]. tauto.
  - exists r. split; now apply CF_keep.
Qed.
Lemma related_convert os i j : i < made os -> j < made os -> (related (os ++ [Convert i]) (made os) j <-> related os i j).
Proof.
  intros Hi Hj. split; intros (r & A & B).
  - exists r. destruct (comes_inv _ _ _ _ A) as [C|[_ C]]; [apply comes_lt in C; lia|]. destruct (comes_inv _ _ _ _ B) as [D|[-> D]]; [|lia]. tauto.
  - exists r. split; [now apply CF_convert|now apply CF_keep].
Qed.
Lemma related_parse os o a j : parses o a -> j < made os -> ~ related (os ++ [o]) (made os) j.
Proof.
  intros P Hj (r & A & B). destruct (comes_inv _ _ _ _ A) as [C|[_ C]]; [apply comes_lt in C; lia|].
  assert (r = made os) as -> by (destruct P; assumption).
  destruct (comes_inv _ _ _ _ B) as [D|[-> D]]; [|lia]. apply comes_lt in D. lia.
Qed.

(** ** Memory *)
Lemma put_nth_length {A} (l : list A) i x : length (put_nth l i x) = length l.
Proof. revert i. induction l; intros [|i]; cbn; auto. Qed.
Lemma put_nth_error {A} (l : list A) i x j : nth_error (put_nth l i x) j = if Nat.eq_dec i j then match nth_error l j with Some _ => Some x | None => None end else nth_error l j.
Proof.
  revert i j. induction l as [|y l IH]; intros i j.
  - destruct i, j; cbn [put_nth nth_error]; match goal with |- context [Nat.eq_dec ?a ?b] => destruct (Nat.eq_dec a b) end; reflexivity.
  - destruct i as [|i], j as [|j]; cbn [put_nth nth_error]; try reflexivity.
    rewrite IH. destruct (Nat.eq_dec i j), (Nat.eq_dec (S i) (S j)); try reflexivity; lia.
Qed.
Lemma put_nth_nth {A} (l : list A) i x j d : i < length l -> nth j (put_nth l i x) d = if Nat.eq_dec i j then x else nth j l d.
Proof.
  revert i j. induction l as [|y l IH]; intros [|i] [|j] H; cbn [put_nth nth length] in *; try lia; try reflexivity.
  rewrite IH by lia. destruct (Nat.eq_dec i j), (Nat.eq_dec (S i) (S j)); try reflexivity; lia.
Qed.
Lemma nth_error_snoc {A} (l : list A) x i y : nth_error (l ++ [x]) i = Some y -> nth_error l i = Some y /\ i < length l \/ i = length l /\ y = x.
Proof.
  intros H. destruct (lt_dec i (length l)) as [L|L]; [left; rewrite nth_error_app1 in H by lia; tauto|].
  rewrite nth_error_app2 in H by lia. destruct (i - length l) as [|n] eqn:E; cbn in H; [injection H as <-; right; split; [lia|reflexivity]|destruct n; discriminate].
Qed.
Lemma args_put a m : args_of (put_args a m) = m. Proof. destruct a; reflexivity. Qed.
Lemma part_put_args a m p : part_of (put_args a m) p = part_of a p. Proof. destruct a, p; reflexivity. Qed.
Lemma part_put_src a s p : part_of (put_src a s) p = part_of a p. Proof. destruct a, p; reflexivity. Qed.
Lemma part_convert a p : part_of (convert a) p = part_of a p. Proof. destruct a, p; reflexivity. Qed.
Definition same_part (p q : part) : {p = q} + {p <> q}. Proof. decide equality. Defined.
Lemma part_put a p v q : part_of (put_part a p v) q = if same_part p q then v else part_of a q.
Proof. destruct a, p, q; reflexivity. Qed.

(** ** What the calls leave *)
Definition holds (os : list addr_op) (h : memory) : Prop :=
  length (addresses h) = made os /\
  (forall i a m, nth_error (addresses h) i = Some (a, m) -> m < length (maps h)) /\
  (forall i j a b m n, nth_error (addresses h) i = Some (a, m) -> nth_error (addresses h) j = Some (b, n) -> (m = n <-> related os i j)) /\
  (forall i a m p v, nth_error (addresses h) i = Some (a, m) -> last_part os i p v -> part_of a p = v) /\
  (forall i a m k v, nth_error (addresses h) i = Some (a, m) -> last_arg os i k v -> mget k (nth m (maps h) new_args) = v).

Lemma part_inv os o i p v : last_part (os ++ [o]) i p v ->
  (last_part os i p v /\ forall w, o <> Assign i p w) \/ o = Assign i p v \/
  (i = made os /\ ((exists a, parses o a /\ v = part_of a p) \/ exists j, o = Convert j /\ last_part os j p v)).
Proof.
  intros H. inversion H as [? ? a ? P E|? j ? ? HL E|? ? ? ? Hi E|? ? ? ? ? HL HN E]; apply snoc_eq in E as [-> <-].
  - right. right. split; [reflexivity|]. left. exists a. split; [assumption|congruence].
  - right. right. split; [reflexivity|]. right. exists j. split; [reflexivity|assumption].
  - right. left. congruence.
  - left. split; [assumption|]. intros; subst; auto.
Qed.
Lemma arg_inv os o i k v : last_arg (os ++ [o]) i k v ->
  (last_arg os i k v /\ forall j, related os i j -> ~ touches o j k) \/
  (exists j, related os i j /\ (exists w, o = SetArg j k w /\ v = Some w)) \/
  (exists j, related os i j /\ o = DelArg j k /\ v = None) \/
  (i = made os /\ ((exists a, parses o a /\ v = mget k (args_of a)) \/ exists j, o = Convert j /\ last_arg os j k v)).
Proof.
  intros H. inversion H as [? ? a ? P E|? j ? ? HL E|? ? j ? w HR E|? ? j ? HR E|? ? ? ? ? HL HN E]; apply snoc_eq in E as [-> <-].
  - do 3 right. split; [reflexivity|]. left. exists a. split; [assumption|congruence].
  - do 3 right. split; [reflexivity|]. right. exists j. split; [reflexivity|assumption].
  - right. left. exists j. split; [assumption|]. exists w. split; congruence.
  - right. right. left. exists j. split; [assumption|]. split; congruence.
  - left. split; [assumption|]. intros; subst; auto.
Qed.
Lemma part_lt os : forall i p v, last_part os i p v -> i < made os.
Proof.
  induction os as [|o os IH] using rev_ind; intros i p v H.
  - inversion H as [? ? ? ? ? E|? ? ? ? ? E|? ? ? ? ? E|? ? ? ? ? ? ? E]; exfalso; eapply snoc_nil; exact E.
  - inversion H as [? ? a ? P E|? j ? ? HL E|? ? ? ? Hi E|? ? ? ? ? HL HN E]; apply snoc_eq in E as [-> <-]; rewrite made_snoc.
    + destruct P; cbn; lia.
    + cbn; lia.
    + cbn; lia.
    + apply IH in HL. lia.
Qed.
Lemma arg_lt os : forall i k v, last_arg os i k v -> i < made os.
Proof.
  induction os as [|o os IH] using rev_ind; intros i k v H.
  - inversion H as [? ? ? ? ? E|? ? ? ? ? E|? ? ? ? ? ? E|? ? ? ? ? E|? ? ? ? ? ? ? E]; exfalso; eapply snoc_nil; exact E.
  - inversion H as [? ? a ? P E|? j ? ? HL E|? ? j ? w HR E|? ? j ? HR E|? ? ? ? ? HL HN E]; apply snoc_eq in E as [-> <-]; rewrite made_snoc.
    + destruct P; cbn; lia.
    + cbn; lia.
    + apply related_lt in HR. cbn. lia.
    + apply related_lt in HR. cbn. lia.
    + apply IH in HL. lia.
Qed.

Lemma no_parse_convert j a : ~ parses (Convert j) a. Proof. intros H. inversion H. Qed.
Lemma holds_parse os h o a : parses o a -> holds os h -> holds (os ++ [o]) (add_new h a).
Proof.
  intros P (HL & HM & HR & HP & HA). assert (N1 : made (os ++ [o]) = S (made os)) by (rewrite made_snoc; destruct P; reflexivity).
  assert (NA : forall i p w, o <> Assign i p w) by (destruct P; discriminate). assert (NC : forall j, o <> Convert j) by (destruct P; discriminate).
  assert (NT : forall j k, ~ touches o j k) by (destruct P; intros j k [[v X]|X]; discriminate X).
  assert (PU : forall b, parses o b -> b = a). { destruct P as [t u E|t r E]; intros b Q; inversion Q; subst; congruence. }
  unfold add_new. split; [|split; [|split; [|split]]]; cbn [maps addresses].
  - rewrite app_length, N1. cbn. lia.
  - intros i b m H. rewrite app_length. cbn. destruct (nth_error_snoc _ _ _ _ H) as [[G _]|[_ E]]; [apply HM in G; lia|injection E as _ ->; lia].
  - intros i j b c m n Hi Hj. destruct (nth_error_snoc _ _ _ _ Hi) as [[Gi Li]|[Ei Fi]], (nth_error_snoc _ _ _ _ Hj) as [[Gj Lj]|[Ej Fj]].
    + rewrite related_old by lia. eapply HR; eassumption.
    + injection Fj as _ ->. rewrite Ej, HL. apply HM in Gi. split; [lia|]. intros X. apply related_sym in X. exfalso. eapply related_parse; [exact P| |exact X]. lia.
    + injection Fi as _ ->. rewrite Ei, HL. apply HM in Gj. split; [lia|]. intros X. exfalso. eapply related_parse; [exact P| |exact X]. lia.
    + injection Fi as _ ->. injection Fj as _ ->. rewrite Ei, Ej, HL. split; [|reflexivity]. intros _. exists (made os). split; (destruct P; [apply CF_user|apply CF_request]).
  - intros i b m p v Hi HLp. destruct (part_inv _ _ _ _ _ HLp) as [[X _]|[X|[-> [(b' & Q & ->)|(j & X & _)]]]]; [|destruct (NA _ _ _ X)| |destruct (NC _ X)].
    + destruct (nth_error_snoc _ _ _ _ Hi) as [[G _]|[E _]]; [eapply HP; eassumption|]. apply part_lt in X. lia.
    + destruct (nth_error_snoc _ _ _ _ Hi) as [[_ G]|[_ F]]; [lia|]. injection F as -> _. now rewrite (PU _ Q).
  - intros i b m k v Hi HLa. destruct (arg_inv _ _ _ _ _ HLa) as [[X _]|[(j & _ & w & X & _)|[(j & _ & X & _)|[-> [(b' & Q & ->)|(j & X & _)]]]]].
    + destruct (nth_error_snoc _ _ _ _ Hi) as [[G _]|[E _]].
      * rewrite app_nth1 by (eapply HM; exact G). eapply HA; eassumption.
      * apply arg_lt in X. lia.
    + exfalso. apply (NT j k). left. eauto.
    + exfalso. apply (NT j k). right. exact X.
    + destruct (nth_error_snoc _ _ _ _ Hi) as [[_ G]|[_ F]]; [lia|]. injection F as -> ->. rewrite app_nth2 by lia. rewrite Nat.sub_diag. cbn [nth]. now rewrite (PU _ Q).
    + destruct (NC _ X).
Qed.
Lemma holds_convert os h i a m : nth_error (addresses h) i = Some (a, m) -> holds os h ->
  holds (os ++ [Convert i]) (mkMem (maps h) (addresses h ++ [(convert a, m)])).
Proof.
  intros G0 (HL & HM & HR & HP & HA). assert (Hi0 : i < made os) by (rewrite <- HL; apply nth_error_Some; congruence).
  assert (N1 : made (os ++ [Convert i]) = S (made os)) by (rewrite made_snoc; reflexivity).
  split; [|split; [|split; [|split]]]; cbn [maps addresses].
  - rewrite app_length, N1. cbn. lia.
  - intros j b n H. destruct (nth_error_snoc _ _ _ _ H) as [[G _]|[_ E]]; [eapply HM, G|injection E as _ ->; eapply HM, G0].
  - intros j k b c n q Hj Hk. destruct (nth_error_snoc _ _ _ _ Hj) as [[Gi Li]|[Ei Fi]], (nth_error_snoc _ _ _ _ Hk) as [[Gj Lj]|[Ej Fj]].
    + rewrite related_old by lia. eapply HR; eassumption.
    + injection Fj as _ ->. rewrite Ej, HL. split; intros X.
      * apply related_sym. apply related_convert; [lia|lia|]. eapply HR; [exact G0|exact Gi|congruence].
      * apply related_sym in X. apply (proj1 (related_convert os i j Hi0 ltac:(lia))) in X. symmetry. eapply HR; [exact G0|exact Gi|exact X].
    + injection Fi as _ ->. rewrite Ei, HL. rewrite related_convert by lia. eapply HR; eassumption.
    + injection Fi as _ ->. injection Fj as _ ->. split; [|reflexivity]. intros _. rewrite Ei, Ej, HL.
      destruct (proj1 (HR _ _ _ _ _ _ G0 G0) eq_refl) as (r & C & _). exists r. split; now apply CF_convert.
  - intros j b n p v Hj HLp. destruct (part_inv _ _ _ _ _ HLp) as [[X _]|[X|[-> [(b' & Q & _)|(j' & X & Y)]]]]; [|discriminate X|destruct (no_parse_convert _ _ Q)|].
    + destruct (nth_error_snoc _ _ _ _ Hj) as [[G _]|[E _]]; [eapply HP; eassumption|]. apply part_lt in X. lia.
    + injection X as <-. destruct (nth_error_snoc _ _ _ _ Hj) as [[_ G]|[_ F]]; [lia|]. injection F as -> ->. rewrite part_convert. eapply HP; eassumption.
  - intros j b n k v Hj HLa. destruct (arg_inv _ _ _ _ _ HLa) as [[X _]|[(? & _ & w & X & _)|[(? & _ & X & _)|[-> [(b' & Q & _)|(j' & X & Y)]]]]]; try discriminate X; [|destruct (no_parse_convert _ _ Q)|].
    + destruct (nth_error_snoc _ _ _ _ Hj) as [[G _]|[E _]]; [eapply HA; eassumption|]. apply arg_lt in X. lia.
    + injection X as <-. destruct (nth_error_snoc _ _ _ _ Hj) as [[_ G]|[_ F]]; [lia|]. injection F as -> ->. eapply HA; eassumption.
Qed.
(** Calls that make no address. *)
Lemma holds_change os h o h' : news o = 0 -> holds os h -> length (maps h') = length (maps h) -> length (addresses h') = length (addresses h) ->
  (forall i b n, nth_error (addresses h') i = Some (b, n) -> exists a, nth_error (addresses h) i = Some (a, n) /\
     (forall p, (forall w, o <> Assign i p w) -> part_of b p = part_of a p) /\ (forall p w, o = Assign i p w -> part_of b p = w) /\
     (forall k, (forall j, related os i j -> ~ touches o j k) -> mget k (nth n (maps h') new_args) = mget k (nth n (maps h) new_args)) /\
     (forall j k w, related os i j -> o = SetArg j k w -> mget k (nth n (maps h') new_args) = Some w) /\
     (forall j k, related os i j -> o = DelArg j k -> mget k (nth n (maps h') new_args) = None)) ->
  holds (os ++ [o]) h'.
Proof.
  intros N0 (HL & HM & HR & HP & HA) LM LA HC. assert (N1 : made (os ++ [o]) = made os) by (rewrite made_snoc, N0; reflexivity).
  assert (Lt : forall i a n, nth_error (addresses h) i = Some (a, n) -> i < made os) by (intros i a n G; rewrite <- HL; apply nth_error_Some; congruence).
  split; [|split; [|split; [|split]]].
  - lia.
  - intros i b n H. destruct (HC _ _ _ H) as (a & G & _). rewrite LM. eapply HM, G.
  - intros i j b c n q Hi Hj. destruct (HC _ _ _ Hi) as (a & G & _), (HC _ _ _ Hj) as (a' & G' & _). rewrite related_old by (eapply Lt; eassumption). eapply HR; eassumption.
  - intros i b n p v Hi HLp. destruct (HC _ _ _ Hi) as (a & G & K1 & K2 & _). destruct (part_inv _ _ _ _ _ HLp) as [[X Y]|[X|[E _]]].
    + rewrite (K1 _ Y). eapply HP; eassumption.
    + exact (K2 _ _ X).
    + apply Lt in G. lia.
  - intros i b n k v Hi HLa. destruct (HC _ _ _ Hi) as (a & G & _ & _ & K1 & K2 & K3). destruct (arg_inv _ _ _ _ _ HLa) as [[X Y]|[(j & R & w & X & ->)|[(j & R & X & ->)|[E _]]]].
    + rewrite (K1 _ Y). eapply HA; eassumption.
    + exact (K2 _ _ _ R X).
    + exact (K3 _ _ R X).
    + apply Lt in G. lia.
Qed.
Lemma run_holds os : legal os -> exists h, addr_run no_memory os = Ok h /\ holds os h.
Proof.
  intros L. induction L as [|os o L IH A].
  - exists no_memory. split; [reflexivity|]. split; [reflexivity|]. repeat split; intros; exfalso;
      repeat match goal with H : nth_error _ ?i = Some _ |- _ => destruct i; discriminate H end.
  - destruct IH as (h & E & HH). setoid_rewrite run_snoc. rewrite E. cbn [bind]. pose proof HH as (HL & HM & HR & _).
    destruct o as [t|t|i|i p v|i k v|i k|i]; cbn [allowed] in A; cbn [addr_step].
    1: { destruct A as [u Eu]. rewrite Eu. cbn [bind]. eexists. split; [reflexivity|]. apply holds_parse; [now constructor|exact HH]. }
    1: { destruct A as [u Eu]. rewrite Eu. cbn [bind]. eexists. split; [reflexivity|]. apply holds_parse; [now constructor|exact HH]. }
    all: destruct (nth_error (addresses h) i) as [[a m]|] eqn:G; [|exfalso; apply nth_error_None in G; lia].
    + eexists. split; [reflexivity|]. now apply holds_convert.
    + eexists. split; [reflexivity|]. apply (holds_change os h); [reflexivity|exact HH|reflexivity|apply put_nth_length|]. cbn [maps addresses]. intros j b n H.
      rewrite put_nth_error in H. destruct (Nat.eq_dec i j) as [<-|N].
      * rewrite G in H. injection H as <- <-. exists a. split; [exact G|]. split; [|split; [|split; [|split]]]; try discriminate; try reflexivity.
        -- intros q Hq. rewrite part_put. destruct (same_part p q) as [->|]; [destruct (Hq v eq_refl)|reflexivity].
        -- intros q w X. injection X as <- <-. rewrite part_put. destruct (same_part p p); congruence.
      * exists b. split; [exact H|]. split; [|split; [|split; [|split]]]; try discriminate; try reflexivity. intros q w X. injection X as X _ _. lia.
    + eexists. split; [reflexivity|]. apply (holds_change os h); [reflexivity|exact HH|apply put_nth_length|reflexivity|]. cbn [maps addresses]. intros j b n H. exists b. split; [exact H|].
      pose proof (HM _ _ _ G) as Hm. rewrite !put_nth_nth by exact Hm. split; [|split; [|split; [|split]]]; try discriminate; try reflexivity.
      * intros q Hq. destruct (Nat.eq_dec m n) as [<-|N]; [|reflexivity]. unfold args_set. apply mget_mset_other. intros ->. apply (Hq i).
        -- eapply HR; [exact H|exact G|reflexivity].
        -- left. eauto.
      * intros j' q w R X. injection X as <- <- <-. destruct (Nat.eq_dec m n) as [<-|N]; [apply mget_mset_same|]. destruct N. symmetry. eapply HR; eassumption.
    + eexists. split; [reflexivity|]. apply (holds_change os h); [reflexivity|exact HH|apply put_nth_length|reflexivity|]. cbn [maps addresses]. intros j b n H. exists b. split; [exact H|].
      pose proof (HM _ _ _ G) as Hm. rewrite !put_nth_nth by exact Hm. split; [|split; [|split; [|split]]]; try discriminate; try reflexivity.
      * intros q Hq. destruct (Nat.eq_dec m n) as [<-|N]; [|reflexivity]. rewrite mget_del. destruct (bytes_eqb q k) eqn:EE; [|reflexivity]. apply bytes_eqb_eq in EE as ->. destruct (Hq i).
        -- eapply HR; [exact H|exact G|reflexivity].
        -- now right.
      * intros j' q R X. injection X as <- <-. destruct (Nat.eq_dec m n) as [<-|N]; [rewrite mget_del, bytes_eqb_refl; reflexivity|]. destruct N. symmetry. eapply HR; eassumption.
    + unfold seen. rewrite G. eexists. split; [reflexivity|]. apply (holds_change os h); [reflexivity|exact HH|reflexivity|apply put_nth_length|]. cbn [maps addresses]. intros j b n H.
      rewrite put_nth_error in H. destruct (Nat.eq_dec i j) as [<-|N].
      * rewrite G in H. injection H as <- <-. exists a. split; [exact G|]. split; [|split; [|split; [|split]]]; try discriminate; try reflexivity. intros q _. apply part_put_src.
      * exists b. split; [exact H|]. split; [|split; [|split; [|split]]]; try discriminate; reflexivity.
Qed.
(** Every field and parameter of every address has a last value. *)
Lemma part_ex os : legal os -> forall i p, i < made os -> exists v, last_part os i p v.
Proof.
  intros L. induction L as [|os o L IH A]; intros i p Hi; [cbn in Hi; lia|]. rewrite made_snoc in Hi.
  destruct (lt_dec i (made os)) as [Hl|Hl].
  - destruct (IH i p Hl) as [v H]. destruct o as [t|t|j|j q w|j k w|j k|j]; try (exists v; apply LP_kept; [exact H|discriminate]).
    destruct (Nat.eq_dec j i) as [->|N], (same_part q p) as [->|Np]; try (exists v; apply LP_kept; [exact H|intros x X; injection X; intros; congruence]).
    exists w. now apply LP_assigned.
  - destruct o as [t|t|j|j q w|j k w|j k|j]; cbn [news] in Hi; try lia; replace i with (made os) by lia.
    + destruct A as [u E]. eexists. apply (LP_parsed os _ (AUser u)). now constructor.
    + destruct A as [u E]. eexists. apply (LP_parsed os _ (ARequest u)). now constructor.
    + destruct (IH j p A) as [v H]. exists v. now apply LP_converted.
Qed.
Lemma arg_ex os : legal os -> forall i k, i < made os -> exists v, last_arg os i k v.
Proof.
  intros L. induction L as [|os o L IH A]; intros i k Hi; [cbn in Hi; lia|]. rewrite made_snoc in Hi.
  destruct (lt_dec i (made os)) as [Hl|Hl].
  - destruct (IH i k Hl) as [v H]. destruct o as [t|t|j|j q w|j q w|j q|j]; try (exists v; apply LA_kept; [exact H|intros x _ [[y X]|X]; discriminate X]).
    + destruct (list_eq_dec Z.eq_dec q k) as [->|N]; [|exists v; apply LA_kept; [exact H|intros x _ [[y X]|X]; [injection X; intros; congruence|discriminate X]]].
      destruct (related_dec os i j L) as [R|R]; [eexists; apply (LA_set os i j k w R)|]. exists v. apply LA_kept; [exact H|]. intros x Rx [[y X]|X]; [injection X; intros; subst; auto|discriminate X].
    + destruct (list_eq_dec Z.eq_dec q k) as [->|N]; [|exists v; apply LA_kept; [exact H|intros x _ [[y X]|X]; [discriminate X|injection X; intros; congruence]]].
      destruct (related_dec os i j L) as [R|R]; [eexists; apply (LA_deleted os i j k R)|]. exists v. apply LA_kept; [exact H|]. intros x Rx [[y X]|X]; [discriminate X|injection X; intros; subst; auto].
  - destruct o as [t|t|j|j q w|j q w|j q|j]; cbn [news] in Hi; try lia; replace i with (made os) by lia.
    + destruct A as [u E]. eexists. apply (LA_parsed os _ (AUser u)). now constructor.
    + destruct A as [u E]. eexists. apply (LA_parsed os _ (ARequest u)). now constructor.
    + destruct (IH j k A) as [v H]. exists v. now apply LA_converted.
Qed.
