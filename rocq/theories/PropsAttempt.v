(** C79: what a failed Marshal says and does. *)
From Coq Require Import QArith Bool List.
From Verif Require Import GoStr GoTime Types Enums Records Common Messages Codec Schema Document SpecDocument Wire
  Samples Marshal SpecAttempt AttemptFacts Url Clients SpecClients ClientFacts CliFacts CliDetect.
Close Scope Q_scope.
Open Scope list_scope.

(** Marshal fails if anything is wrong with the sign-on or a message, and its error
    is then the first of these things, in the order of the document. *)
Theorem C79_error : forall q,
  (request_marshal q = None <-> request_complaints q <> []) /\
  snd (request_attempt q) = option_map EPlain (hd_error (request_complaints q)).
Proof. exact request_reports. Qed.
Print Assumptions C79_error.

Theorem C79_response_error : forall r,
  (response_marshal r = None <-> response_complaints r <> []) /\
  response_attempt r = option_map EPlain (hd_error (response_complaints r)).
Proof. exact response_reports. Qed.
Print Assumptions C79_response_error.

(** Whether or not it fails, the request is the same afterwards, but that the
    language and the routing of the profile requests before the first fault are
    filled in. If it succeeds this is the request it leaves behind. *)
Theorem C79_effect : forall q, filled_in q (request_after q) /\
  forall b q', request_marshal q = Some (b, q') -> request_after q = q'.
Proof. exact request_effect. Qed.
Print Assumptions C79_effect.

(** Another call has the same outcome and changes nothing more. *)
Theorem C79_retry : forall q,
  request_marshal (request_after q) = request_marshal q /\ request_attempt (request_after q) = request_attempt q.
Proof. exact request_retry. Qed.
Print Assumptions C79_retry.

(** A client that cannot marshal the request sends nothing, returns that error, and
    leaves the request as Marshal does. *)
Theorem C79_client : forall w e c q tr r err q', runs (client_request w e c q) tr ((r, err), q') ->
  let q1 := set_client_fields (w_now w) c q in
  filled_in q1 q' /\
  (request_complaints q1 <> [] -> tr = [] /\ r = None /\ err = option_map EPlain (hd_error (request_complaints q1))).
Proof. exact client_reports. Qed.
Print Assumptions C79_client.

(** A profile request, then a message that is not one, then another profile
    request: the second is the fault, the first has been filled in and the last has
    not. *)
Definition case_profile (uid : str) : Message := MsgProfileRequest (mkProfileRequest uid [] [] [] zero_time).
Definition case_slots : Slots :=
  slots_of_list [[]; []; []; []; []; []; []; []; []; []; []; [];
    [case_profile (bs "1"); MsgAcctInfoRequest (mkAcctInfoRequest (bs "2") [] [] zero_time); case_profile (bs "3")]; []].
Definition case_broken : Request :=
  mkRequest (rq_url sample_request) (rq_version sample_request) (rq_signon sample_request) case_slots false false.

Example C79_case :
  request_marshal case_broken = None /\
  snd (request_attempt case_broken) = Some (EPlain (bs "Expected PROFMSGSRQV1 message , found SIGNUPMSGSRQV1")) /\
  sl_prof (rq_slots (request_after case_broken)) =
    [sent (case_profile (bs "1")); MsgAcctInfoRequest (mkAcctInfoRequest (bs "2") [] [] zero_time); case_profile (bs "3")] /\
  sent (case_profile (bs "1")) <> case_profile (bs "1").
Proof. split; [vm_compute; reflexivity|]. split; [vm_compute; reflexivity|]. split; [vm_compute; reflexivity|discriminate]. Qed.
