(** What C29 and C30 say, in terms of messages and verdicts only. *)
From Coq Require Import String.
From Verif Require Import Base Text Auth2Model.

(** A required step: a method, possibly with a device ("keyboard-interactive:pam").
    A list is its steps separated by commas. *)
Definition item := (list Z * option (list Z))%type.
Fixpoint cut_colon (l : list Z) : item :=
  match l with
  | [] => ([], None)
  | a :: l => if a =? COLON then ([], Some l) else let (n, s) := cut_colon l in (a :: n, s)
  end.
Definition items (l : list Z) : list item := map cut_colon (split COMMA l).

(** A completed method (with its device) satisfies a step. *)
Definition satisfies (done : item) (i : item) : Prop :=
  fst done = fst i /\ (snd i = None \/ (snd i <> None /\ snd i = snd done)).
(** All the steps occur among the completed methods, in this order. *)
Inductive in_order : list item -> list item -> Prop :=
  | io_nil : forall ds, in_order [] ds
  | io_skip : forall is d ds, in_order is ds -> in_order is (d :: ds)
  | io_take : forall i is d ds, satisfies d i -> in_order is ds -> in_order (i :: is) (d :: ds).

(** The methods completed during a connection *)
Definition done_of (o : out) : list item :=
  match o with OVerdict Accepted m s | OVerdict Partial m s => [(m, s)] | _ => [] end.
Definition completed (tr : list (ev * list out)) : list item := flat_map (fun p => flat_map done_of (snd p)) tr.
Definition got_success (tr : list (ev * list out)) : Prop := exists e o, In (e, o) tr /\ In OSuccess o.

(** A configured list counts if it is not empty and all its methods are known and enabled. *)
Definition usable (c : cfg) (l : list Z) : Prop :=
  l <> [] /\ forall n s, In (n, s) (items l) -> exists m, In m (table c) /\ mname m = n /\ (m = mNone \/ cf_en c m = true).
(** Lists are in force unless none is given or the only one is "any" *)
Definition multi (c : cfg) : Prop := cf_lists c <> [] /\ cf_lists c <> [bs "any"].

(** The check that a verdict Accepted or Partial reports was passed by this message. *)
Definition passed (c : cfg) (e : ev) (m : list Z) (sub : option (list Z)) : Prop :=
  match e with
  | EReq _ _ n _ a =>
      sub = None /\ r_auth a = true /\
      exists k, mname k = m /\ (n = m \/ msyn k = Some n) /\ k <> mKbd /\ k <> mGss /\ (k = mNone -> cf_empty c = true /\ cf_en c mPasswd = true) /\ (k <> mNone -> cf_en c k = true)
  | EInfo RespOk _ _ _ => m = mname mKbd /\ exists d, In d (cf_devs c) /\ sub = Some d
  | EGssMic true _ | EGssCompl true _ => m = mname mGss /\ sub = None
  | _ => False
  end.
(** A message by which the client offers a credential that is refused.  (Asking
    for an acceptable key, starting an exchange, or naming a method that is not
    available offers none.) *)
Definition refused (e : ev) : bool :=
  match e with
  | EReq _ _ n _ a => (beqb n (mname mPasswd) || beqb n (mname mHost)) && negb (r_auth a) ||
                      (beqb n (mname mPubkey) || beqb n (bs "publickey-hostbound-v00@openssh.com")) && negb (r_auth a) && negb (r_post a)
  | EInfo RespFail _ _ _ => true
  | _ => false
  end.

(** Failures that count: verdict Failed, except for the first request if it is for
    "none", and while the last request met a GSSAPI failure of the server's making. *)
Definition failed (o : list out) : Z :=
  zlen (filter (fun x => match x with OVerdict Failed _ _ => true | _ => false end) o).
Fixpoint counted (first excused : bool) (tr : list (ev * list out)) : Z :=
  match tr with
  | [] => 0
  | (e, o) :: tr =>
      match e with
      | EReq _ _ m _ a =>
          let excused := r_srv a && beqb m (mname mGss) in
          (if excused || (first && beqb m (bs "none")) then 0 else failed o) + counted false excused tr
      | _ => (if excused then 0 else failed o) + counted first excused tr
      end
  end.
Definition counted_failures (tr : list (ev * list out)) : Z := counted true false tr.
(** Requests and refused credentials that were acted upon *)
Definition answered (p : ev * list out) : bool := negb (is_nil (snd p)).
Definition requests (tr : list (ev * list out)) : Z :=
  zlen (filter (fun p => answered p && match fst p with EReq _ _ _ _ _ => true | _ => false end) tr).
Definition refusals (tr : list (ev * list out)) : Z := zlen (filter (fun p => answered p && refused (fst p)) tr).

(** The first request: service and password entry *)
Fixpoint first_request (tr : list (ev * list out)) : option (list Z * option bool) :=
  match tr with
  | [] => None
  | (EReq _ v _ pw _, _) :: _ => Some (v, pw)
  | _ :: tr => first_request tr
  end.
(** PermitRootLogin, for a method completed by message [e] *)
Definition forced (e : ev) : bool :=
  match e with EReq _ _ _ _ a => r_force a | EInfo _ _ _ f | EGssTok _ f | EGssMic _ f | EGssCompl _ f => f | EGssErr => false end.
Definition root_ok (c : cfg) (e : ev) (m : list Z) : Prop :=
  match cf_root c with
  | PermitYes => True
  | PermitNoPasswd => m = bs "publickey" \/ m = bs "hostbased" \/ m = bs "gssapi-with-mic"
  | PermitForcedOnly => forced e = true
  | PermitNo => False
  end.
