(** What a failed Marshal ought to say and do (C79). *)
From Coq Require Import QArith.
From Verif Require Import GoStr GoTime Types Enums Records Common Messages Codec Schema Document SpecDocument.
Close Scope Q_scope.

(** What the encoder has to say about a message: the name of a message set of a
    profile has to end in V1 and to be more than that. *)
Definition unwritable (m : Message) : option str :=
  match m with
  | MsgProfileResponse r =>
      match find (fun s => negb (has_suffix (bs "V1") (MessageSet_Name s)) || str_eqb (MessageSet_Name s) (bs "V1"))
                 (ProfileResponse_MessageSetList r) with
      | Some s => Some (if has_suffix (bs "V1") (MessageSet_Name s) then bs "xml: start tag with no name"
                        else bs "Expected MessageSet.Name to end with ""V1""")
      | None => None
      end
  | _ => None
  end.

(** What is wrong with a message that is filed in the set with this name: it does
    not belong there, its own Valid method has something to say, or it cannot be
    written. *)
Definition complaint (version : N) (filed : str * Message) : option str :=
  if str_eqb (belongs_in (snd filed)) (fst filed) then
    match snd (message_valid (snd filed) version) with
    | Some problem => Some problem
    | None => unwritable (snd filed)
    end
  else Some (bs "Expected " ++ fst filed ++ bs " message , found " ++ belongs_in (snd filed)).

(** All messages of a request or response with the set they are in, in order. *)
Definition filed (sets : list (str * list Message)) : list (str * Message) :=
  flat_map (fun p => map (fun m => (fst p, m)) (snd p)) sets.

Definition as_list (o : option str) : list str := match o with Some x => [x] | None => [] end.

(** Everything that is wrong, in the order of the document. *)
Definition request_complaints (q : Request) : list str :=
  as_list (snd (signon_request_valid (rq_signon q))) ++
  flat_map (fun p => as_list (complaint (rq_version q) p)) (filed (request_sets (rq_slots q))).

Definition response_complaints (r : Response) : list str :=
  as_list (signon_response_valid (rs_signon r)) ++
  flat_map (fun p => as_list (complaint (rs_version r) p)) (filed (response_sets (rs_slots r))).

(** What Marshal may have done to a request: the language of the sign-on and the
    routing of profile requests may have been filled in, the latter up to the first
    message with which something is wrong. *)
Definition filled_in (q q' : Request) : Prop :=
  rq_url q' = rq_url q /\ rq_version q' = rq_version q /\ rq_indent q' = rq_indent q /\ rq_cr q' = rq_cr q /\
  (rq_signon q' = rq_signon q \/ rq_signon q' = sent_signon (rq_signon q)) /\
  exists pre rest,
    filed (request_sets (rq_slots q)) = pre ++ rest /\
    filed (request_sets (rq_slots q')) = map (fun p => (fst p, sent (snd p))) pre ++ rest /\
    Forall (fun p => complaint (rq_version q) p = None) pre /\
    (snd (signon_request_valid (rq_signon q)) <> None -> pre = []) /\
    match rest with
    | [] => True
    | p :: _ => snd (signon_request_valid (rq_signon q)) <> None \/ complaint (rq_version q) p <> None
    end.
