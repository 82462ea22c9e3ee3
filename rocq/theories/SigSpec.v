(** Vocabulary for C76: signature files, what is signed, and the file of allowed
    signers. *)
From Coq Require Import String.
From Verif Require Import Base Text SshbufSpec MiscNumModel MatchSpec AuthOptModel AuthOptSpec CertModel CertSpec Base64Spec SigModel.
Local Open Scope Z_scope.

(** ** Signatures *)
(** What is signed: the purpose (namespace), the name of the digest and the digest
    of the message. *)
Definition signed_data (ns alg h : list Z) : list Z :=
  bs "SSHSIG" ++ enc_string ns ++ enc_string [] ++ enc_string alg ++ enc_string h.
(** A signature object: version, public key, namespace, a reserved field, the name
    of the digest, the signature proper. *)
Definition is_object (w : list Z) (v : Z) (kb ns rsv alg sg : list Z) : Prop :=
  exists wns walg, w = bs "SSHSIG" ++ be_enc 4 v ++ enc_string kb ++ wns ++ enc_string rsv ++ walg ++ enc_string sg /\
    0 <= v <= 1 /\ ctext wns ns /\ ctext walg alg /\ zlen kb <= 134217724 /\ zlen rsv <= 134217724 /\ zlen sg <= 134217724.
Definition hash_ok (alg : list Z) : Prop := alg = bs "sha256" \/ alg = bs "sha512".
(** The algorithm a signature names. *)
Definition names_alg (sg t : list Z) : Prop := exists w r, sg = w ++ r /\ ctext w t.
Definition rsa_ok (sg : list Z) : Prop := names_alg sg (bs "rsa-sha2-256") \/ names_alg sg (bs "rsa-sha2-512").
(** The bytes that reading the message delivers. *)
Definition delivers (l : list got) (m : list Z) : Prop :=
  ~ In GError l /\ m = flat_map (fun g => match g with GData d => d | _ => [] end) l.
(** The text form; a NUL at the end of the middle part is tolerated. *)
Definition text_of (d s : list Z) : Prop :=
  exists eol t nul tail, s = bs "-----BEGIN SSH SIGNATURE-----" ++ eol ++ (t ++ nul) ++ [10] ++ bs "-----END SSH SIGNATURE-----" ++ tail /\
    (eol = [10] \/ eol = [13; 10]) /\ (nul = [] \/ nul = [0]) /\ is_bytes d /\ squeeze t = base64 d.

Section Keys.
Variable from_blob : list Z -> option pkey.
Variable rsa : pkey -> bool.
Variable ver : pkey -> list Z -> list Z -> bool.
Variable dig : list Z -> list Z -> list Z.
(** [w] is a signature by [k] of the message [m] for the purpose [ns]. *)
Definition signs (w : list Z) (k : pkey) (ns m : list Z) : Prop :=
  exists v kb rsv alg sg, is_object w v kb ns rsv alg sg /\ from_blob kb = Some k /\ hash_ok alg /\
    (rsa k = true -> rsa_ok sg) /\ zlen (signed_data ns alg (dig alg m)) <= 134217728 /\
    ver k sg (signed_data ns alg (dig alg m)) = true.
End Keys.

(** ** The file of allowed signers *)
Inductive sitem := SAuthority | SNamespaces (v : list Z) | SAfter (v : list Z) | SBefore (v : list Z) | SNothing.
Definition sspelled (i : sitem) (t : list Z) : Prop :=
  match i with
  | SAuthority => word (bs "cert-authority") t
  | SNamespaces v => valued (bs "namespaces") v t
  | SAfter v => valued (bs "valid-after") v t
  | SBefore v => valued (bs "valid-before") v t
  | SNothing => t = []
  end.
(** Options separated by commas, none after a final comma. *)
Definition soptions (line : list Z) (its : list sitem) : Prop :=
  exists ts, Forall2 sspelled its ts /\ ts <> [] /\ line = join 44 ts /\ ((2 <= length ts)%nat -> last ts [] <> []).
Section Signers.
Variable ptime : list Z -> option Z.
Variable rd : list Z -> option pkey.
Definition seffect (i : sitem) (o o' : sopt) : Prop :=
  match i with
  | SAuthority => o' = mkSo true (so_ns o) (so_after o) (so_before o)
  | SNamespaces v => so_ns o = None /\ o' = mkSo (so_ca o) (Some v) (so_after o) (so_before o)
  | SAfter v => so_after o = 0 /\ exists t, ptime v = Some t /\ t <> 0 /\ o' = mkSo (so_ca o) (so_ns o) t (so_before o)
  | SBefore v => so_before o = 0 /\ exists t, ptime v = Some t /\ t <> 0 /\ o' = mkSo (so_ca o) (so_ns o) (so_after o) t
  | SNothing => o' = o
  end.
Fixpoint seffects (its : list sitem) (o o' : sopt) : Prop :=
  match its with [] => o' = o | i :: r => exists o1, seffect i o o1 /\ seffects r o1 o' end.
Definition no_options : sopt := mkSo false None 0 0.
Definition smeans (its : list sitem) (o : sopt) : Prop :=
  seffects its no_options o /\ (so_after o <> 0 -> so_before o <> 0 -> so_after o < so_before o).

Definition white_c (c : Z) : Prop := c = 32 \/ c = 9 \/ c = 13 \/ c = 10.
Definition starts_black (r : list Z) : Prop := match r with [] => True | c :: _ => ~ white_c c end.
(** The first word of a line, part of which may be quoted, and the rest. *)
Inductive first_word : list Z -> list Z -> list Z -> Prop :=
| fw_bare : forall t c b r, Forall (fun x => ~ white_c x /\ x <> 34) t -> white_c c -> Forall white_c b -> starts_black r ->
    first_word (t ++ c :: b ++ r) t r
| fw_quoted : forall t q b r, Forall (fun x => ~ white_c x /\ x <> 34) t -> ~ In 34 q -> Forall white_c b -> starts_black r ->
    first_word (t ++ 34 :: q ++ 34 :: b ++ r) (t ++ q) r.
(** A key, with or without options before it. *)
Definition key_part (s : list Z) (k : pkey) (o : sopt) : Prop :=
  (rd s = Some k /\ o = no_options) \/
  (rd s = None /\ exists opts c r its, s = opts ++ c :: r /\ (c = 32 \/ c = 9) /\ soptions opts its /\ smeans its o /\ rd (skip_blanks r) = Some k).
(** What a line says. *)
Definition says_line (line : list Z) (e : entry) : Prop :=
  exists b l s, cstr line = b ++ l /\ Forall white_c b /\ (exists c r, l = c :: r /\ ~ white_c c /\ c <> 35) /\
    first_word l (e_who e) s /\ key_part s (e_key e) (e_opt e).
End Signers.
(** A name is on a pattern list: some pattern covers it and no negated one does.
    A list with a pattern of 1023 bytes or more matches nothing. *)
Definition on_list (l n : list Z) : Prop :=
  Forall fits (entries l) /\ some_positive false n (entries l) /\ ~ some_negative false n (entries l).
(** Two keys are the same: certificates with the same bytes, or plain keys. *)
Definition same_key (a b : pkey) : Prop :=
  k_pub (pk_key a) = k_pub (pk_key b) /\
  (k_cert (pk_key a) = None <-> k_cert (pk_key b) = None) /\
  (k_cert (pk_key a) <> None -> pk_blob a = pk_blob b).
(** An entry allows a key to sign as [who] for the purpose [ns] at time [t]. *)
Definition allows (e : entry) (k : pkey) (who ns : list Z) (t : Z) : Prop :=
  on_list (e_who e) who /\
  ((so_ca (e_opt e) = false /\ same_key (e_key e) k) \/
   (so_ca (e_opt e) = true /\ exists c, k_cert (pk_key k) = Some c /\ c_ca c = k_pub (pk_key (e_key e)) /\
      in_scope c ForUser true false t (Some who))) /\
  (forall l, so_ns (e_opt e) = Some l -> on_list l ns) /\
  (so_after (e_opt e) <> 0 -> so_after (e_opt e) <= t) /\
  (so_before (e_opt e) <> 0 -> t <= so_before (e_opt e)).
(** What "find-principals" suggests from an entry, for a key and a time. *)
Definition suggested (e : entry) (k : pkey) (t : Z) (out : list (list Z)) : Prop :=
  ((so_ca (e_opt e) = false /\ same_key (e_key e) k /\ out = names (e_who e)) \/
   (so_ca (e_opt e) = true /\ exists c, k_cert (pk_key k) = Some c /\ c_ca c = k_pub (pk_key (e_key e)) /\
      in_scope c ForUser true false t None /\ out <> [] /\
      forall n, In n out <-> In n (c_principals c) /\ exists p, In p (names (e_who e)) /\ glob p n)) /\
  (so_after (e_opt e) <> 0 -> so_after (e_opt e) <= t) /\
  (so_before (e_opt e) <> 0 -> t <= so_before (e_opt e)).
(** A key whose certificate, if any, names principals that are words without comma. *)
Definition plain_names (k : pkey) : Prop :=
  forall c, k_cert (pk_key k) = Some c -> Forall (fun n => n <> [] /\ ~ In 44 n) (c_principals c).
