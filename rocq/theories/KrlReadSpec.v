(** The format of a revocation list, after PROTOCOL.krl: documents and their
    bytes, and what a document says.  Nothing here knows how it is read. *)
From Coq Require Import String.
From Verif Require Import Base SshbufSpec KrlModel KrlSpec.
Local Open Scope Z_scope.

(** PROTOCOL.krl 2.1-2.5: subsections of a certificates section. *)
Inductive dsub :=
| DSerials (l : list Z)
| DRange (lo hi : Z)
| DBits (off : Z) (num : list Z)
| DIds (l : list (list Z))
| DOption (name : list Z) (critical : Z) (contents : list Z).
(** PROTOCOL.krl 1-6: sections. *)
Inductive dsect :=
| DCerts (ca reserved : list Z) (subs : list dsub)
| DKeys (l : list (list Z))
| DSha1 (l : list (list Z))
| DSha256 (l : list (list Z))
| DSignature (key sig : list Z)
| DExtension (name : list Z) (critical : Z) (contents : list Z).
Record document := mkDoc { d_version : Z; d_date : Z; d_flags : Z; d_reserved : list Z; d_comment : list Z; d_sects : list dsect }.

(** The bytes. *)
Definition strings (l : list (list Z)) : list Z := concat (map enc_string l).
Definition sub_bytes (s : dsub) : list Z :=
  match s with
  | DSerials l => [32] ++ enc_string (concat (map (be_enc 8) l))
  | DRange lo hi => [33] ++ enc_string (be_enc 8 lo ++ be_enc 8 hi)
  | DBits off num => [34] ++ enc_string (be_enc 8 off ++ enc_string num)
  | DIds l => [35] ++ enc_string (strings l)
  | DOption n c d => [57] ++ enc_string (enc_string n ++ [c] ++ enc_string d)
  end.
Definition sect_bytes (s : dsect) : list Z :=
  match s with
  | DCerts ca r subs => [1] ++ enc_string (enc_string ca ++ enc_string r ++ concat (map sub_bytes subs))
  | DKeys l => [2] ++ enc_string (strings l)
  | DSha1 l => [3] ++ enc_string (strings l)
  | DSha256 l => [5] ++ enc_string (strings l)
  | DSignature k s => [4] ++ enc_string k ++ enc_string s
  | DExtension n c d => [255] ++ enc_string (enc_string n ++ [c] ++ enc_string d)
  end.
Definition doc_bytes (d : document) : list Z :=
  bs "SSHKRL" ++ [10; 0] ++ be_enc 4 1 ++ be_enc 8 (d_version d) ++ be_enc 8 (d_date d) ++ be_enc 8 (d_flags d) ++
  enc_string (d_reserved d) ++ enc_string (d_comment d) ++ concat (map sect_bytes (d_sects d)).

(** Numbers fit their fields and strings are not over the reader's limit. *)
Definition str_fits (s : list Z) : Prop := is_bytes s /\ zlen s <= 134217724.
Definition n64 (v : Z) : Prop := 0 <= v < U64.
Definition sub_fits (s : dsub) : Prop :=
  zlen (sub_bytes s) <= 134217729 /\
  match s with
  | DSerials l => Forall n64 l
  | DRange lo hi => n64 lo /\ n64 hi
  | DBits off num => n64 off /\ str_fits num
  | DIds l => Forall str_fits l
  | DOption n c d => str_fits n /\ is_byte c /\ str_fits d
  end.
Definition sect_fits (s : dsect) : Prop :=
  match s with
  | DCerts ca r subs => str_fits ca /\ str_fits r /\ Forall sub_fits subs /\ zlen (sect_bytes s) <= 134217729
  | DKeys l | DSha1 l | DSha256 l => Forall str_fits l /\ zlen (sect_bytes s) <= 134217729
  | DSignature k s => str_fits k /\ str_fits s
  | DExtension n c d => str_fits n /\ is_byte c /\ str_fits d /\ zlen (sect_bytes s) <= 134217729
  end.
Definition doc_fits (d : document) : Prop :=
  n64 (d_version d) /\ n64 (d_date d) /\ n64 (d_flags d) /\ str_fits (d_reserved d) /\ str_fits (d_comment d) /\ Forall sect_fits (d_sects d).

(** What a document says, as revocations (see [KrlSpec.matches]).  A bitmap at
    [off] with number N revokes off + i for every bit i of N. *)
Definition bits_of (N : Z) : list Z := filter (Z.testbit N) (map Z.of_nat (seq 0 (Z.to_nat (Z.log2 N + 1)))).
Definition text (s : list Z) : list Z := match rev s with c :: r => if c =? 0 then rev r else s | [] => s end.
Definition sub_says (ca : option (list Z)) (s : dsub) : list kop :=
  match s with
  | DSerials l => map (fun n => KSerials ca n n) l
  | DRange lo hi => [KSerials ca lo hi]
  | DBits off num => map (fun i => KSerials ca (off + i) (off + i)) (bits_of (be_dec num))
  | DIds l => map (fun i => KKeyId ca (text i)) l
  | DOption _ _ _ => []
  end.
Section Says.
(** Reading a CA key: its canonical blob. *)
Variable key_from_blob : list Z -> option (list Z).
Definition ca_of (b : list Z) : option (list Z) := match b with [] => None | _ => key_from_blob b end.
Definition sect_says (s : dsect) : list kop :=
  match s with
  | DCerts ca _ subs => flat_map (sub_says (ca_of ca)) subs
  | DKeys l => map (fun b => KExplicit (QKey b None None (Some b) None)) l
  | DSha1 l => map KSha1 l
  | DSha256 l => map KSha256 l
  | DSignature _ _ | DExtension _ _ _ => []
  end.
Definition doc_says (d : document) : list kop := flat_map sect_says (d_sects d).

(** A document that means something the reader can honour: no critical
    extensions; serials from 1 to 2^64-1; text without NUL, except possibly one at
    its end; fingerprints of the right size; CA keys that can be read. *)
Definition text_ok (s : list Z) : Prop := ~ In 0 (text s).
Definition sub_ok (s : dsub) : Prop :=
  match s with
  | DSerials l => Forall (fun n => 1 <= n) l
  | DRange lo hi => 1 <= lo <= hi
  | DBits off num =>
      hd 0 num < 128 /\ (zlen num <= 2048 \/ (zlen num = 2049 /\ hd 0 num = 0)) /\
      off + Z.log2 (be_dec num) < U64 /\ (off = 0 -> Z.testbit (be_dec num) 0 = false)
  | DIds l => Forall text_ok l
  | DOption n c _ => text_ok n /\ c = 0
  end.
Definition sect_ok (s : dsect) : Prop :=
  match s with
  | DCerts ca _ subs => (ca <> [] -> key_from_blob ca <> None) /\ Forall sub_ok subs
  | DKeys _ | DSignature _ _ => True
  | DSha1 l => Forall (fun h => zlen h = 20) l
  | DSha256 l => Forall (fun h => zlen h = 32) l
  | DExtension n c _ => text_ok n /\ c = 0
  end.
Definition doc_ok (d : document) : Prop := text_ok (d_comment d) /\ Forall sect_ok (d_sects d).
End Says.
