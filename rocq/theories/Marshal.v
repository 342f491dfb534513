(** Model of Request.Marshal and Response.Marshal when they fail: the error they
    return, and what Request.Marshal has changed in the request by then. Document
    and Wire have the case of success. *)
From Coq Require Import QArith.
From Verif Require Import GoStr GoTime Types Enums Records Common Messages Codec Schema Document.
Close Scope Q_scope.

(** The error of MessageSetList.MarshalXML, profile.go:131-157, for the first name
    it refuses; the second text is that of the encoder, which refuses an element
    without a name. *)
Fixpoint set_names_error (names : list str) : str :=
  match names with
  | [] => []
  | n :: names' =>
      if not_v1 n then bs "Expected MessageSet.Name to end with ""V1"""
      else if null (trim_v1 n) then bs "xml: start tag with no name"
      else set_names_error names'
  end.

(** The error of Encoder.Encode, request.go:52. Only a profile response has a
    MarshalXML method that can fail. *)
Definition encoding_error (m : Message) : goerr :=
  match m with
  | MsgProfileResponse r => EPlain (set_names_error (map MessageSet_Name (ProfileResponse_MessageSetList r)))
  | _ => EPlain []
  end.

(** request.go:47. *)
Definition misfiled_error (m : Message) (set : msgtype) : goerr :=
  EPlain (bs "Expected " ++ msgtype_string set ++ bs " message , found " ++ msgtype_string (message_type m)).

(** The loop of encodeMessageSet, request.go:45-55: the messages as they are when
    it ends, and the error. Messages are pointers, so that Valid changes those of
    the caller. *)
Fixpoint attempt_messages (ms : list Message) (set : msgtype) (version : N) : list Message * option goerr :=
  match ms with
  | [] => ([], None)
  | m :: ms' =>
      if negb (msgtype_eqb (message_type m) set) then (m :: ms', Some (misfiled_error m set))
      else
        match message_valid m version with
        | (m', Some err) => (m' :: ms', Some (EPlain err))
        | (m', None) =>
            match encode_message m' with
            | None => (m' :: ms', Some (encoding_error m'))
            | Some _ =>
                let r := attempt_messages ms' set version in
                (m' :: fst r, snd r)
            end
        end
  end.

(** The loop over the message sets, request.go:136-140. *)
Fixpoint attempt_sets (tbl : list (list Message * msgtype)) (version : N) : list (list Message) * option goerr :=
  match tbl with
  | [] => ([], None)
  | (ms, t) :: tbl' =>
      match attempt_messages ms t version with
      | (ms', Some err) => (ms' :: map fst tbl', Some err)
      | (ms', None) =>
          let r := attempt_sets tbl' version in
          (ms' :: fst r, snd r)
      end
  end.

(** Request.Marshal, request.go:80-151: the request as it is after the call, and
    the error. The sign-on can always be encoded. *)
Definition request_attempt (q : Request) : Request * option goerr :=
  match signon_request_valid (rq_signon q) with
  | (sn, Some err) =>
      (mkRequest (rq_url q) (rq_version q) sn (rq_slots q) (rq_indent q) (rq_cr q), Some (EPlain err))
  | (sn, None) =>
      let r := attempt_sets (set_table (rq_slots q) Rq) (rq_version q) in
      (mkRequest (rq_url q) (rq_version q) sn (slots_of_list (fst r)) (rq_indent q) (rq_cr q), snd r)
  end.

(** Response.Marshal, response.go:414-476: the error. *)
Definition response_attempt (r : Response) : option goerr :=
  match signon_response_valid (rs_signon r) with
  | Some err => Some (EPlain err)
  | None => snd (attempt_sets (set_table (rs_slots r) Rs) (rs_version r))
  end.

(** The request after the call. *)
Definition request_after (q : Request) : Request := fst (request_attempt q).

(** The error of a Request.Marshal that fails. *)
Definition marshal_failure (q : Request) : goerr :=
  match snd (request_attempt q) with Some err => err | None => EPlain [] end.
