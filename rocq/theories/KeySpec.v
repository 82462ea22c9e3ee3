(** Vocabulary for C77: the byte form of public keys and certificates. *)
From Coq Require Import String.
From Verif Require Import Base Text SshbufModel SshbufSpec WireSpec CertSpec KeyModel.
Local Open Scope Z_scope.

(** The names a key of each kind goes by; the first is the one written. *)
Definition curve_text (c : curve) : list Z := match c with P256 => bs "nistp256" | P384 => bs "nistp384" | P521 => bs "nistp521" end.
Definition plain_names (p : kpub) : list (list Z) :=
  match p with
  | PEd _ => [bs "ssh-ed25519"]
  | PEdSk _ _ => [bs "sk-ssh-ed25519@openssh.com"]
  | PEc P256 _ => [bs "ecdsa-sha2-nistp256"] | PEc P384 _ => [bs "ecdsa-sha2-nistp384"] | PEc P521 _ => [bs "ecdsa-sha2-nistp521"]
  | PEcSk P256 _ _ => [bs "sk-ecdsa-sha2-nistp256@openssh.com"; bs "webauthn-sk-ecdsa-sha2-nistp256@openssh.com"]
  | PEcSk _ _ _ => []
  | PRsa _ _ => [bs "ssh-rsa"; bs "rsa-sha2-256"; bs "rsa-sha2-512"]
  end.
Definition cert_names (p : kpub) : list (list Z) :=
  match p with
  | PEd _ => [bs "ssh-ed25519-cert-v01@openssh.com"]
  | PEdSk _ _ => [bs "sk-ssh-ed25519-cert-v01@openssh.com"]
  | PEc P256 _ => [bs "ecdsa-sha2-nistp256-cert-v01@openssh.com"] | PEc P384 _ => [bs "ecdsa-sha2-nistp384-cert-v01@openssh.com"]
  | PEc P521 _ => [bs "ecdsa-sha2-nistp521-cert-v01@openssh.com"]
  | PEcSk P256 _ _ => [bs "sk-ecdsa-sha2-nistp256-cert-v01@openssh.com"]
  | PEcSk _ _ _ => []
  | PRsa _ _ => [bs "ssh-rsa-cert-v01@openssh.com"; bs "rsa-sha2-256-cert-v01@openssh.com"; bs "rsa-sha2-512-cert-v01@openssh.com"]
  end.

(** A magnitude: no zero byte in front. *)
Definition magnitude (v : list Z) : Prop := match v with [] => True | c :: _ => c <> 0 end.
(** An integer as a wire string: zeros may stand in front of the magnitude, the top
    bit must be clear, the magnitude and one zero must fit. *)
Definition mpint (w v : list Z) : Prop :=
  magnitude v /\ exists z, w = enc_string (z ++ v) /\ Forall (fun c => c = 0) z /\ zlen (z ++ v) <= 2049 /\ zlen v <= 2048 /\
    match z ++ v with c :: _ => c < 128 | [] => True end.
(** Of at least 1024 bits *)
Definition large (v : list Z) : Prop := 2 ^ 1023 <= be_dec v.

Section Spec.
Variable point_ok : curve -> list Z -> bool.
Variable ver : kpub -> list Z -> list Z -> bool.
Definition point (c : curve) (pt : list Z) : Prop := (exists r, pt = 4 :: r) /\ zlen pt <= 133 /\ point_ok c pt = true.
(** The key material as it stands in a blob *)
Definition material (p : kpub) (w : list Z) : Prop :=
  match p with
  | PEd pk => w = enc_string pk /\ zlen pk = 32
  | PEdSk pk app => exists a, w = enc_string pk ++ a /\ zlen pk = 32 /\ ctext a app
  | PEc c pt => exists a, w = a ++ enc_string pt /\ ctext a (curve_text c) /\ point c pt
  | PEcSk c pt app => exists a a', w = a ++ enc_string pt ++ a' /\ ctext a (curve_text c) /\ point c pt /\ ctext a' app
  | PRsa e n => exists a a', w = a ++ a' /\ mpint a e /\ mpint a' n /\ large n
  end.
Definition is_plain (b : list Z) (p : kpub) : Prop :=
  exists wn name w, b = wn ++ w /\ ctext wn name /\ In name (plain_names p) /\ material p w.

(** A sequence of texts, and one of pairs of strings *)
Inductive texts : list Z -> list (list Z) -> Prop :=
| texts_nil : texts [] []
| texts_cons : forall w x b l, ctext w x -> texts b l -> texts (w ++ b) (x :: l).
Inductive pairs : list Z -> Prop :=
| pairs_nil : pairs []
| pairs_cons : forall n d b, zlen n <= 134217724 -> zlen d <= 134217724 -> pairs b -> pairs (enc_string n ++ enc_string d ++ b).

Definition word64 (v : Z) : Prop := 0 <= v < 18446744073709551616.
(** [signed] are the bytes a certificate's signature covers: they say that the key [p]
    has the fields [t] and that the authority is [ca]. *)
Definition says (signed : list Z) (p : kpub) (t : tbs) (ca : kpub) : Prop :=
  exists wn name nonce w wid wp rsv cab,
    signed = wn ++ enc_string nonce ++ w ++ be_enc 8 (t_serial t) ++ be_enc 4 (t_type t) ++ wid ++ enc_string wp ++
             be_enc 8 (t_after t) ++ be_enc 8 (t_before t) ++ enc_string (t_crit t) ++ enc_string (t_ext t) ++ enc_string rsv ++ enc_string cab /\
    ctext wn name /\ In name (cert_names p) /\ zlen nonce <= 134217724 /\ material p w /\
    word64 (t_serial t) /\ (t_type t = 1 \/ t_type t = 2) /\ ctext wid (t_id t) /\
    texts wp (t_principals t) /\ zlen (t_principals t) <= 256 /\ zlen wp <= 134217724 /\
    word64 (t_after t) /\ word64 (t_before t) /\ pairs (t_crit t) /\ zlen (t_crit t) <= 134217724 /\ pairs (t_ext t) /\ zlen (t_ext t) <= 134217724 /\
    zlen rsv <= 134217724 /\ is_plain cab ca /\ zlen cab <= 134217724.
(** A signature starts with the name of its algorithm. *)
Definition made_with (sig alg : list Z) : Prop := exists w r, sig = w ++ r /\ ctext w alg.
Definition is_certificate (b : list Z) (p : kpub) (c : kcert) : Prop :=
  exists signed sig, b = signed ++ enc_string sig /\ zlen sig <= 134217724 /\ says signed p (kc_body c) (kc_ca c) /\
    ver (kc_ca c) sig signed = true /\ made_with sig (kc_sigtype c) /\ kc_blob c = b.

(** Keys and fields that the formats can carry *)
Definition proper (p : kpub) : Prop :=
  match p with
  | PEd pk => zlen pk = 32 /\ is_bytes pk
  | PEdSk pk app => zlen pk = 32 /\ is_bytes pk /\ ~ In 0 app /\ is_bytes app
  | PEc c pt => point c pt /\ is_bytes pt
  | PEcSk c pt app => c = P256 /\ point c pt /\ is_bytes pt /\ ~ In 0 app /\ is_bytes app
  | PRsa e n => magnitude e /\ is_bytes e /\ zlen e <= 2048 /\ magnitude n /\ is_bytes n /\ zlen n <= 2048 /\ large n
  end.
Definition proper_fields (t : tbs) : Prop :=
  word64 (t_serial t) /\ (t_type t = 1 \/ t_type t = 2) /\ ~ In 0 (t_id t) /\ is_bytes (t_id t) /\
  Forall (fun p => ~ In 0 p /\ is_bytes p) (t_principals t) /\ zlen (t_principals t) <= 256 /\ word64 (t_after t) /\ word64 (t_before t) /\
  pairs (t_crit t) /\ is_bytes (t_crit t) /\ pairs (t_ext t) /\ is_bytes (t_ext t).
End Spec.

(** A line of text: the name, the base64 of the blob, the comment. *)
Definition blank (s : list Z) : Prop := s <> [] /\ Forall (fun c => c = 32 \/ c = 9) s.
Definition solid (s : list Z) : Prop := ~ In 32 s /\ ~ In 9 s.
Definition no_blank_front (s : list Z) : Prop := match s with [] => True | c :: _ => c <> 32 /\ c <> 9 end.
