(** C70: reading a revocation list either refuses it or honours all of it. *)
From Coq Require Import String.
From Verif Require Import Base SshbufSpec KrlModel KrlSpec KrlReadSpec KrlReadProof KrlReadProof2.
Local Open Scope Z_scope.

(** Every document in the format of PROTOCOL.krl: if it says something the
    reader cannot honour, the whole document is refused; otherwise a key is
    reported revoked exactly if the document says so.  [kfb] reads CA keys. *)
Theorem C70_document : forall kfb d, (forall b c, kfb b = Some c -> c <> []) -> doc_fits d ->
  (doc_ok kfb d -> exists k, ssh_krl_from_blob kfb (doc_bytes d) = POk k /\ k_version k = d_version d /\ k_comment k = Some (text (d_comment d)) /\
     forall q, match ssh_krl_check_key k q with
               | KRevoked => matches (doc_says kfb d) q
               | KOk => ~ matches (doc_says kfb d) q
               | KError => ~ checkable q
               end) /\
  (~ doc_ok kfb d -> ssh_krl_from_blob kfb (doc_bytes d) = PErr).
Proof.
  intros kfb d Hk F. destruct (from_blob_eq kfb d F) as [P1 P2]. split; [|exact P2]. intros O. exists (kruns (blank d) (doc_says kfb d)). split; [now apply P1|].
  destruct (says_header (doc_says kfb d) (blank d)) as [H1 H2]; [apply says_plain|]. split; [exact H1|]. split; [exact H2|]. intros q. now apply read_check.
Qed.
Print Assumptions C70_document.

(** Nothing but such documents is read. *)
Theorem C70_only_documents : forall kfb b k, is_bytes b -> ssh_krl_from_blob kfb b = POk k -> exists d, doc_fits d /\ b = doc_bytes d.
Proof. intros kfb b k B H. exact (from_blob_inv kfb b k B H). Qed.
Print Assumptions C70_only_documents.

(** So a list with a critical extension, of the list or of a certificates
    section, is never used, whatever else it holds and wherever it is. *)
Theorem C70_critical : forall kfb d, doc_fits d ->
  (exists n c x, c <> 0 /\ (In (DExtension n c x) (d_sects d) \/ exists ca r subs, In (DCerts ca r subs) (d_sects d) /\ In (DOption n c x) subs)) ->
  ssh_krl_from_blob kfb (doc_bytes d) = PErr.
Proof.
  intros kfb d F (n & c & x & Hc & H). destruct (from_blob_eq kfb d F) as [_ P]. apply P. intros [_ O]. rewrite Forall_forall in O. destruct H as [H|(ca & r & subs & H1 & H2)].
  - apply O in H. destruct H as [_ H]. contradiction.
  - apply O in H1. destruct H1 as [_ O1]. rewrite Forall_forall in O1. apply O1 in H2. destruct H2 as [_ H2]. contradiction.
Qed.
Print Assumptions C70_critical.

(** A document with every kind of section, readable; the same with a critical
    extension at its end, not readable; and the same cut anywhere or with a
    byte after it, not readable. *)
Definition ex_subs := [DSerials [5; 7]; DRange 10 20; DBits 100 [5]; DIds [bs "host"]; DOption (bs "ext") 0 [1]].
Definition ex_doc := mkDoc 3 1000 0 [] (bs "hi") [DCerts [9] [] ex_subs; DKeys [[1; 2]]; DSha1 [repeat 1 20]; DSha256 [repeat 2 32]; DExtension (bs "e") 0 []; DSignature [1] [2]].
Definition ex_crit := mkDoc 3 1000 0 [] (bs "hi") (d_sects ex_doc ++ [DExtension (bs "e") 1 []]).
Definition ex_kfb (b : list Z) : option (list Z) := match b with [] => None | _ => Some b end.
Definition ex_q (serial : Z) : qkey := QKey [1] (Some (repeat 3 20)) (Some (repeat 4 32)) (Some [3]) (Some (serial, bs "x", QKey [9] (Some (repeat 3 20)) (Some (repeat 4 32)) (Some [8]) None)).
Ltac fits := repeat (split || constructor || (vm_compute; (reflexivity || (intros; discriminate) || exact Logic.I))).
Example C70_ex : (forall b c, ex_kfb b = Some c -> c <> []) /\ doc_fits ex_doc /\ doc_ok ex_kfb ex_doc /\ doc_fits ex_crit /\
  match ssh_krl_from_blob ex_kfb (doc_bytes ex_doc) with
  | POk k => map (fun s => ssh_krl_check_key k (ex_q s)) [5; 6; 20; 21; 100; 101; 102] = [KRevoked; KOk; KRevoked; KOk; KRevoked; KOk; KRevoked]
  | _ => False
  end /\ ssh_krl_from_blob ex_kfb (doc_bytes ex_crit) = PErr /\
  forallb (fun n => match ssh_krl_from_blob ex_kfb (ztake n (doc_bytes ex_doc)) with PErr => true | _ => false end) [0; 1; 43; 44; 50; 100; 200; zlen (doc_bytes ex_doc) - 1] = true.
Proof.
  split; [intros [|x b] c H; [discriminate|]; injection H as <-; discriminate|].
  split; [fits|]. split; [|split; [fits|vm_compute; auto]].
  split; [intros H; vm_compute in H; repeat (destruct H as [H|H]; [discriminate H|]); exact H|].
  repeat constructor; try discriminate; try (vm_compute; reflexivity); try (intros H; vm_compute in H; repeat (destruct H as [H|H]; [discriminate H|]); exact H).
  all: vm_compute; try discriminate; intros; discriminate.
Qed.
