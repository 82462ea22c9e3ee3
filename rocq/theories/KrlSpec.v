(** What a revocation list is supposed to say: the union of everything that was
    revoked, criterion by criterion.  Nothing here knows about trees, merged
    ranges or section formats. *)
From Verif Require Import Base KrlModel.

(** The calls that build a list. *)
Inductive kop :=
| KVersion (v : Z)
| KComment (c : list Z)
| KSerials (ca : option (list Z)) (lo hi : Z)
| KKeyId (ca : option (list Z)) (id : list Z)
| KExplicit (q : qkey)
| KSha1 (h : list Z)
| KSha256 (h : list Z)
| KKey (q : qkey).
Definition or_same (k : krl) (o : option krl) : krl := match o with Some k' => k' | None => k end.
Definition kstep (k : krl) (o : kop) : krl :=
  match o with
  | KVersion v => ssh_krl_set_version k v
  | KComment c => ssh_krl_set_comment k c
  | KSerials ca lo hi => or_same k (ssh_krl_revoke_cert_by_serial_range k ca lo hi)
  | KKeyId ca id => ssh_krl_revoke_cert_by_key_id k ca id
  | KExplicit q => or_same k (ssh_krl_revoke_key_explicit k q)
  | KSha1 h => or_same k (ssh_krl_revoke_key_sha1 k h)
  | KSha256 h => or_same k (ssh_krl_revoke_key_sha256 k h)
  | KKey q => or_same k (ssh_krl_revoke_key k q)
  end.
Definition kruns (k : krl) (ops : list kop) : krl := fold_left kstep ops k.

(** Arguments C can pass: 64-bit numbers, strings without NUL, and keys whose
    blob is not empty. *)
Definition ca_arg (ca : option (list Z)) : Prop := match ca with Some b => b <> [] | None => True end.
Definition kop_ok (o : kop) : Prop :=
  match o with
  | KVersion v => 0 <= v < U64
  | KComment c => ~ In 0 c
  | KSerials ca lo hi => ca_arg ca /\ 0 <= lo < U64 /\ 0 <= hi < U64
  | KKeyId ca id => ca_arg ca /\ ~ In 0 id
  | KKey q => match q_cert q with None => True | Some (serial, id, ca) => 0 <= serial < U64 /\ ~ In 0 id /\ q_blob ca <> [] end
  | _ => True
  end.

(** What an operation revokes. *)
Definition op_serial (o : kop) (ca : option (list Z)) (s : Z) : Prop :=
  match o with
  | KSerials ca' lo hi => ca' = ca /\ 1 <= lo /\ lo <= s <= hi
  | KKey q => match q_cert q with Some (serial, _, cak) => ca = Some (q_blob cak) /\ serial <> 0 /\ s = serial | None => False end
  | _ => False
  end.
Definition op_id (o : kop) (ca : option (list Z)) (id : list Z) : Prop :=
  match o with
  | KKeyId ca' id' => ca' = ca /\ id' = id
  | KKey q => match q_cert q with Some (serial, id', cak) => ca = Some (q_blob cak) /\ serial = 0 /\ id = id' | None => False end
  | _ => False
  end.
Definition op_key (o : kop) (b : list Z) : Prop :=
  match o with
  | KExplicit q => q_plain q = Some b
  | KKey q => q_cert q = None /\ q_plain q = Some b
  | _ => False
  end.
Definition op_sha1 (o : kop) (h : list Z) : Prop := match o with KSha1 h' => h' = h /\ zlen h = 20 | _ => False end.
Definition op_sha256 (o : kop) (h : list Z) : Prop := match o with KSha256 h' => h' = h /\ zlen h = 32 | _ => False end.

Definition said {A} (P : kop -> A -> Prop) (ops : list kop) (x : A) : Prop := exists o, In o ops /\ P o x.
Definition serial_said ops ca s := exists o, In o ops /\ op_serial o ca s.
Definition id_said ops ca id := exists o, In o ops /\ op_id o ca id.

(** A criterion matches the key itself ... *)
Definition own_match (ops : list kop) (q : qkey) : Prop :=
  (exists h, q_sha1 q = Some h /\ said op_sha1 ops h) \/
  (exists h, q_sha256 q = Some h /\ said op_sha256 ops h) \/
  (exists b, q_plain q = Some b /\ said op_key ops b) \/
  (exists serial id cak ca, q_cert q = Some (serial, id, cak) /\ (ca = Some (q_blob cak) \/ ca = None) /\
     (id_said ops ca id \/ (serial <> 0 /\ serial_said ops ca serial))).
(** ... or the key that signed it. *)
Definition matches (ops : list kop) (q : qkey) : Prop :=
  own_match ops q \/ exists serial id cak, q_cert q = Some (serial, id, cak) /\ own_match ops cak.

(** The fingerprints and the blob of the key can be computed. *)
Definition hashable (q : qkey) : Prop := q_sha1 q <> None /\ q_sha256 q <> None /\ q_plain q <> None.
Definition checkable (q : qkey) : Prop :=
  hashable q /\ match q_cert q with Some (_, _, cak) => hashable cak | None => True end.

(** The CA named by a call, and a reader ([kfb], sshkey_from_blob) that gets every
    such CA key back from its own blob. *)
Definition op_ca (o : kop) : option (list Z) :=
  match o with
  | KSerials ca _ _ | KKeyId ca _ => ca
  | KKey q => match q_cert q with Some (_, _, cak) => Some (q_blob cak) | None => None end
  | _ => None
  end.
Definition ca_keys_read (kfb : list Z -> option (list Z)) (ops : list kop) : Prop :=
  forall o b, In o ops -> op_ca o = Some b -> kfb b = Some b.
