(** Property C223: Src and the other fields of an address, through every history of assignments, Bytes and conversions. *)
From Coq Require Import String.
From Verif Require Import Base.Go Base.GoFacts Base.IO Base.Text Model.Sip Model.SipAddrObj Spec.Sip Proofs.Sip Props.Sip.
Import ListNotations.
Local Open Scope list_scope.
Local Open Scope Z_scope.

Definition addr_after (ops : list addr_op) (a : addr) : addr := fold_left addr_step ops a.
(** The public fields of either kind. *)
Definition addr_src (a : addr) : bytes := match a with AUser u => u_src u | AReq r => r_src r end.
Definition addr_type (a : addr) : bytes := match a with AUser u => u_type u | AReq r => r_type r end.
Definition addr_user (a : addr) : bytes := match a with AUser u => u_user u | AReq r => r_user r end.
Definition addr_host (a : addr) : bytes := match a with AUser u => u_host u | AReq r => r_host r end.
Definition addr_port (a : addr) : bytes := match a with AUser u => u_port u | AReq r => r_port r end.
Definition addr_args (a : addr) : args := match a with AUser u => u_args u | AReq r => r_args r end.
Definition is_user (a : addr) : bool := match a with AUser _ => true | AReq _ => false end.
Definition addr_name (a : addr) : bytes := match a with AUser u => u_name u | AReq _ => [] end.
(** What was last assigned to a field, if anything. *)
Definition last_of {A} (pick : addr_op -> option A) (ops : list addr_op) (old : A) : A := fold_left (fun v o => match pick o with Some v' => v' | None => v end) ops old.
Definition types (o : addr_op) : option bytes := match o with AssignType v => Some v | _ => None end.
Definition users (o : addr_op) : option bytes := match o with AssignUser v => Some v | _ => None end.
Definition hosts (o : addr_op) : option bytes := match o with AssignHost v => Some v | _ => None end.
Definition ports (o : addr_op) : option bytes := match o with AssignPort v => Some v | _ => None end.
Definition argss (o : addr_op) : option args := match o with AssignArgs v => Some v | _ => None end.

Lemma last_step {A} (get : addr -> A) (pick : addr_op -> option A) : (forall a o, get (addr_step a o) = match pick o with Some v => v | None => get a end) ->
  forall ops a, get (addr_after ops a) = last_of pick ops (get a).
Proof. intros H. induction ops as [|o ops IH]; intros a; [reflexivity|]. unfold addr_after, last_of in *. cbn [fold_left]. rewrite IH, H. reflexivity. Qed.
Local Ltac field := intros [[]|[]] []; reflexivity.

(** ** C223: after every history each field is the one last assigned; Bytes and conversions change none of them. Each conversion changes the kind. *)
Theorem C223_fields : forall ops a, let a' := addr_after ops a in
  addr_type a' = last_of types ops (addr_type a) /\ addr_user a' = last_of users ops (addr_user a) /\ addr_host a' = last_of hosts ops (addr_host a) /\
  addr_port a' = last_of ports ops (addr_port a) /\ addr_args a' = last_of argss ops (addr_args a).
Proof. intros ops a. cbv zeta. repeat split; apply last_step; field. Qed.
Print Assumptions C223_fields.

(** ** C223: Src is the text that the last Bytes returned, whatever was assigned and converted since; without one, the Src at the start. *)
Theorem C223_src : forall before after a, ~ In WriteAddr after ->
  addr_src (addr_after (before ++ WriteAddr :: after) a) = addr_bytes (addr_after before a) /\ addr_src (addr_after after a) = addr_src a.
Proof.
  assert (X : forall after a, ~ In WriteAddr after -> addr_src (addr_after after a) = addr_src a).
  { induction after as [|o after IH]; intros a HN; [reflexivity|]. unfold addr_after in *. cbn [fold_left]. rewrite IH by (intros H; apply HN; right; exact H).
    destruct a as [[]|[]], o; try reflexivity; elim HN; left; reflexivity. }
  intros before after a HN. split; [|apply X, HN]. unfold addr_after. rewrite fold_left_app. cbn [fold_left]. fold (addr_after before a). fold (addr_after after (addr_step (addr_after before a) WriteAddr)).
  rewrite X by exact HN. destruct (addr_after before a) as [[]|[]]; reflexivity.
Qed.
Print Assumptions C223_src.

(** ** C223: a conversion loses the display name, and a SIPRequest has none to assign. *)
Theorem C223_name : forall ops a, let a' := addr_after ops a in
  addr_name (addr_step a' ConvertAddr) = [] /\ is_user (addr_step a' ConvertAddr) = negb (is_user a') /\
  (forall v, addr_name (addr_step a' (AssignName v)) = if is_user a' then v else []) /\
  (forall o, o <> ConvertAddr -> (forall v, o <> AssignName v) -> addr_name (addr_step a' o) = addr_name a' /\ is_user (addr_step a' o) = is_user a').
Proof.
  intros ops a. cbv zeta. destruct (addr_after ops a) as [[]|[]]; (split; [reflexivity|]; split; [reflexivity|]; split; [intros v; reflexivity|]);
    intros o H1 H2; destruct o; try (split; reflexivity); try (elim H1; reflexivity); elim (H2 _ eq_refl).
Qed.
Print Assumptions C223_name.

(** ** C223, refuted for every address: one that has been written and is then converted has a Src that is not its own text. *)
Theorem C223_converted_src_refuted : forall ops a, let a' := addr_after (ops ++ [WriteAddr; ConvertAddr]) a in addr_src a' <> addr_bytes a'.
Proof.
  intros ops a. cbv zeta. unfold addr_after. rewrite fold_left_app. cbn [fold_left]. fold (addr_after ops a).
  destruct (addr_after ops a) as [[t n u h p g s]|[t u h p g s]]; cbn [addr_step user_stored request_stored user_to_request request_to_user addr_src addr_bytes u_type u_name u_user u_host u_port u_args u_src r_type r_user r_host r_port r_args r_src];
    unfold user_bytes, request_bytes, user_to_request, request_to_user; cbn [u_type u_name u_user u_host u_port u_args r_type r_user r_host r_port r_args name_part];
    intros E; apply (f_equal (@List.length Z)) in E; rewrite ?app_length in E; cbn [List.length app] in E; rewrite ?app_length in E; cbn [List.length] in E; lia.
Qed.
Print Assumptions C223_converted_src_refuted.

(** ** C223: the text of a SIPUser without a display name is read back with every field as Bytes left it, Src too. *)
Theorem C223_read_back : forall t u h p g s, scheme t -> without [64; 59; 62; 32] u -> without [58; 59; 62; 32] h -> without [59; 62; 32] p -> plain_args g ->
  let x := mkUser t [] u h p g s in exists y, new_user (user_bytes x) = Ok y /\ u_type y = t /\ u_name y = [] /\ u_user y = u /\ u_host y = h /\ u_port y = p /\ same_map (u_args y) g /\
    u_src y = addr_src (addr_step (AUser x) WriteAddr).
Proof.
  intros t u h p g s H1 H2 H3 H4 H5. cbv zeta. destruct (C81_user_round_trip t u h p g s H1 H2 H3 H4 H5) as (y & E & E1 & E2 & E3 & E4 & E5 & E6).
  exists y. repeat (split; [assumption|]). cbn [addr_step user_stored addr_src u_src]. clear - E. unfold new_user in E.
  destruct (user_loop _ _ _ _ _ _ _ _) as [[[[[[rest ty] na] us] ho] po]|? | |]; try discriminate E. cbn [bind] in E.
  destruct (match rest with [] => _ | _ => _ end) as [a|? | |]; try discriminate E. injection E as <-. reflexivity.
Qed.
Print Assumptions C223_read_back.
(** An address is received, written, converted to a request, given another host, and written again. *)
Example C223_ex : exists u, new_user (str "<sip:bob@h>;tag=1") = Ok u /\
  let a := addr_after [WriteAddr; ConvertAddr; AssignHost (str "g")] (AUser u) in
  addr_src a = str "<sip:bob@h>;tag=1" /\ addr_bytes a = str "sip:bob@g;tag=1" /\ addr_src (addr_step a WriteAddr) = str "sip:bob@g;tag=1".
Proof. eexists. split; [vm_compute; reflexivity|]. vm_compute. repeat split; reflexivity. Qed.

(** ** C223: Via likewise: Bytes leaves the other fields alone and makes Src the text, which is read back. *)
Theorem C223_via : forall t h p g s, let x := mkVia t h p g s in
  v_trans (via_stored x) = t /\ v_host (via_stored x) = h /\ v_port (via_stored x) = p /\ v_args (via_stored x) = g /\ v_src (via_stored x) = via_bytes x /\
  (transport t -> without [58; 59; 32] h -> without [59; 32] p -> plain_args g ->
   exists y, new_via (via_bytes x) = Ok y /\ v_trans y = t /\ v_host y = h /\ v_port y = p /\ same_map (v_args y) g /\ v_src y = v_src (via_stored x)).
Proof.
  intros t h p g s. cbv zeta. repeat (split; [reflexivity|]). intros H1 H2 H3 H4. destruct (C80_via_round_trip t h p g s H1 H2 H3 H4) as (y & E & E1 & E2 & E3 & E4).
  exists y. repeat (split; [assumption|]). cbn [via_stored v_src]. clear - E. unfold new_via in E.
  destruct (via_loop _ _ _ _ _ _) as [[[[rest tr] ho] po]|? | |]; try discriminate E. cbn [bind] in E.
  destruct (match rest with [] => _ | _ => _ end) as [a|? | |]; try discriminate E. injection E as <-. reflexivity.
Qed.
Print Assumptions C223_via.
Example C223_via_ex : exists y, new_via (via_bytes (mkVia (str "UDP") (str "h") (str "5060") [] [])) = Ok y /\ v_src y = str "SIP/2.0/UDP h:5060".
Proof. eexists. split; vm_compute; reflexivity. Qed.
