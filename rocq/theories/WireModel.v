(** Data that is signed during public-key user authentication, as the sequence
    of buffer calls the server makes to rebuild it. *)
From Coq Require Import String.
From Verif Require Import Base SshbufModel.

(** auth2-pubkey.c 193-222 (userauth_pubkey), the same sequence as
    sshconnect2.c 1401-1432 (sign_and_send_pubkey) and as parsed by
    ssh-agent.c parse_userauth_request.  SSH2_MSG_USERAUTH_REQUEST is 50
    (ssh2.h 98), have_sig is 1 here.  [hostkey] is Some blob for the
    host-bound method (auth2-pubkey.c 104: method name; sshkey_puts appends the
    host key blob as a string).  Not modelled: the SSH_OLD_SESSIONID
    compatibility branch, which puts the session id without its length. *)
Definition method_name (hostbound : bool) : list Z :=
  if hostbound then bs "publickey-hostbound-v00@openssh.com" else bs "publickey".
Definition is_some {A} (o : option A) : bool := match o with Some _ => true | None => false end.
Definition userauth_ops (sid userstyle service alg blob : list Z) (hostkey : option (list Z)) : list op :=
  [OPutString true sid; OPutInt true 1 50; OPutString true userstyle; OPutString true service;
   OPutString true (method_name (is_some hostkey)); OPutInt true 1 1;
   OPutString true alg; OPutString true blob] ++
  match hostkey with Some hk => [OPutString true hk] | None => [] end.
