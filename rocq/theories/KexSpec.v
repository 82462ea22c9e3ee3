(** Key exchange: the KEXINIT message, RFC 4253 section 7.1 negotiation, and the
    key streams of section 7.2. *)
From Coq Require Import String.
From Verif Require Import Base Text SshbufSpec MatchSpec.

(** A KEXINIT body: cookie, ten name-lists, first_kex_packet_follows, reserved. *)
Definition kexinit (cookie : list Z) (p : list (list Z)) (follows reserved : Z) : list Z :=
  cookie ++ concat (map enc_string p) ++ be_enc 1 follows ++ be_enc 4 reserved.
Definition proposal_ok (p : list (list Z)) : Prop :=
  length p = 10%nat /\ Forall (fun l => zlen l <= 134217724 /\ ~ In 0 l) p.

(** The negotiated name: the client's first that the server lists too (only
    forty names of the server's list are looked at). *)
Definition chosen (client server n : list Z) : Prop := first_common (names client) (firstn 40 (names server)) n.

(** The key stream of a label: K1 = HASH(K||H||label||session_id),
    K(n+1) = HASH(K||H||K1||...||Kn); [stream n] is K1||...||Kn. *)
Fixpoint stream (hash : list Z -> list Z) (K H sid : list Z) (label : Z) (n : nat) : list Z :=
  match n with
  | O => []
  | S n => stream hash K H sid label n ++
           hash (match n with O => K ++ H ++ [label] ++ sid | S _ => K ++ H ++ stream hash K H sid label n end)
  end.
