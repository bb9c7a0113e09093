(** The values of AMF0 documents with references and embedded AMF3 values, as EnDecAMF0 reads them. *)
From Verif Require Import Base.Go Model.AmfTypes Spec.Amf Spec.AmfDoc Spec.Amf3Doc Spec.Amf3Ref.

(** No members, elements, reference or AMF3 value. *)
Definition simple (t : doc0) : Prop :=
  match t with A_object _ | A_ecma _ _ | A_typed _ _ | A_strict _ | A_reference _ | A_avmplus _ => False | _ => True end.
(** [reads W env t c p W' env']: the document t, whose last c bytes may be missing, is read as p. The AMF3 tables go from W to
    W'. env holds, for each place of the AMF0 table, the value that took it, once it is complete: a reference denotes it. A
    strict array is entered as an empty array and a typed object as an empty one without a name, for good; the members of a
    typed object take a place of their own (C137). *)
Inductive reads : world -> list (option pval) -> doc0 -> nat -> pval -> world -> list (option pval) -> Prop :=
| rd_simple W env t : simple t -> reads W env t 0 (read0 t) W env
| rd_reference W env i p : nth_error env (Z.to_nat i) = Some (Some p) -> reads W env (A_reference i) 0 p W env
| rd_amf3 W env s c p W' : value3r Library W s c p W' -> reads W env (A_avmplus s) c p W' env
| rd_object W env fs ps W' env' p : fields_read W (env ++ [None]) fs ps W' env' -> p = PObj (members ps) ->
    reads W env (A_object fs) 0 p W' (complete (length env) p env')
| rd_ecma W env n fs ps W' env' p : fields_read W (env ++ [None]) fs ps W' env' -> p = PObj (members ps) ->
    reads W env (A_ecma n fs) 0 p W' (complete (length env) p env')
| rd_typed W env ty fs ps W' env' : fields_read W (env ++ [Some (PTyped [] []); None]) fs ps W' env' ->
    reads W env (A_typed ty fs) 0 (PTyped ty (members ps)) W' (complete (S (length env)) (PObj (members ps)) env')
| rd_strict W env l c ps W' env' : elems_read W (env ++ [Some (PArr [])]) l c ps W' env' ->
    reads W env (A_strict l) c (PArr ps) W' env'
with fields_read : world -> list (option pval) -> list (bytes * doc0) -> list (bytes * pval) -> world -> list (option pval) -> Prop :=
| rdf_nil W env : fields_read W env [] [] W env
| rdf_cons W env k t p W1 env1 fs ps W2 env2 : reads W env t 0 p W1 env1 -> fields_read W1 env1 fs ps W2 env2 ->
    fields_read W env ((k, t) :: fs) ((k, p) :: ps) W2 env2
with elems_read : world -> list (option pval) -> list doc0 -> nat -> list pval -> world -> list (option pval) -> Prop :=
| rde_nil W env : elems_read W env [] 0 [] W env
| rde_cons W env t c1 p W1 env1 l c2 ps W2 env2 : reads W env t c1 p W1 env1 -> elems_read W1 env1 l c2 ps W2 env2 ->
    c1 = 0%nat \/ l = [] -> elems_read W env (t :: l) (c1 + c2) (p :: ps) W2 env2.

(** The decoder's table holds the values env says. *)
Definition known (d : dstate) (env : list (option pval)) : Prop :=
  Forall2 (fun o v => match o with Some p => unfolds (d_heap d) v p | None => True end) env (d_ref0 d).

(** Some reference in t denotes a map that contains it: up are the places of the enclosing maps, n is the next place. *)
Fixpoint refers_up (up : list Z) (n : Z) (t : doc0) {struct t} : bool :=
  let fields := fix fields up n (fs : list (bytes * doc0)) {struct fs} :=
    match fs with [] => false | (_, x) :: fs' => refers_up up n x || fields up (n + slots x) fs' end in
  let elems := fix elems up n (l : list doc0) {struct l} :=
    match l with [] => false | x :: l' => refers_up up n x || elems up (n + slots x) l' end in
  match t with
  | A_reference i => existsb (Z.eqb i) up
  | A_object fs | A_ecma _ fs => fields (n :: up) (n + 1) fs
  | A_typed _ fs => fields (n + 1 :: up) (n + 2) fs
  | A_strict l => elems up (n + 1) l
  | _ => false
  end.
(** No object has two members with the same name. *)
Fixpoint distinct_names (t : doc0) : Prop :=
  match t with
  | A_object fs | A_ecma _ fs | A_typed _ fs => NoDup (map fst fs) /\ all_of (map (fun p => distinct_names (snd p)) fs)
  | A_strict l => all_of (map distinct_names l)
  | _ => True
  end.
