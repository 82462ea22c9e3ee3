(** C80: SOCKS requests on dynamic forwardings. *)
From Coq Require Import String.
From Verif Require Import Base SshbufModel SshbufSpec MiscNumModel SocksModel SocksSpec SocksProof SocksProof2.
Local Open Scope Z_scope.

Section Props.
Variable text6 : list Z -> list Z.
Notation play' := (play text6).

(** The server is asked to connect exactly where the client's bytes say: whatever the
    schedule, they begin with a request for that host and port, were answered as the
    protocol prescribes, and what is kept for the target is all that follows. *)
Theorem C80_opens : forall evs h p, is_bytes (stream evs) -> c_phase (play' evs) = Opening h p ->
  exists q, stream evs = q ++ c_in (play' evs) /\ asks text6 q (c_out (play' evs)) h p.
Proof.
  intros evs h p B P. destruct (any_schedule text6 evs B) as (E & _). rewrite settle_end in E by congruence. symmetry in E. destruct (play' evs) as [ph a i o] eqn:Q. cbn [c_phase c_in c_out] in *. subst ph. now apply whole_opens in E.
Qed.
(** However the bytes are cut, and whenever the handler ran: two more runs after a
    complete request the channel is being opened to its host and port. *)
Theorem C80_delivered : forall evs q o h p r, is_bytes (stream evs) -> stream evs = q ++ r -> asks text6 q o h p ->
  exists a, play' (evs ++ [Handler; Handler]) = mkC (Opening h p) a r o.
Proof.
  intros evs q o h p r B S A. destruct (any_schedule text6 evs B) as (E & _). rewrite S in *. apply is_bytes_app in B as (B & _). destruct (whole_asks text6 q o h p r B A) as (a & W). exists a. rewrite <- W, <- E. unfold play. now rewrite fold_left_app.
Qed.
(** Segmentation never matters. *)
Theorem C80_segmentation : forall evs evs', is_bytes (stream evs) -> stream evs = stream evs' -> play' (evs ++ [Handler; Handler]) = play' (evs' ++ [Handler; Handler]).
Proof.
  intros evs evs' B S. destruct (any_schedule text6 evs B) as (E & _). rewrite S in B. destruct (any_schedule text6 evs' B) as (E' & _). rewrite S in E. unfold play in *. rewrite !fold_left_app. cbn [fold_left step]. exact (eq_trans E (eq_sym E')).
Qed.
(** A channel is given up only if nothing that could still arrive would make the bytes
    a request. *)
Lemma dead_stays : forall evs evs', c_phase (play' evs) = Dead -> c_phase (play' (evs ++ evs')) = Dead.
Proof.
  intros evs evs' D. induction evs' as [|e evs' IH] using rev_ind; [now rewrite app_nil_r|]. rewrite app_assoc. unfold play in *. rewrite fold_left_app. cbn [fold_left]. set (s := fold_left _ _ fresh) in *. destruct e; cbn [step]; [unfold receive|unfold pre_dynamic]; now rewrite IH.
Qed.
Theorem C80_refused : forall evs, is_bytes (stream evs) -> c_phase (play' evs) = Dead ->
  forall more q o h p r, is_bytes more -> stream evs ++ more = q ++ r -> ~ asks text6 q o h p.
Proof.
  intros evs B D more q o h p r Bm S A. destruct (C80_delivered (evs ++ [Bytes more]) q o h p r) as (a & E).
  - rewrite stream_app. apply is_bytes_app. split; [assumption|]. cbn [stream]. now rewrite app_nil_r. - rewrite stream_app. cbn [stream]. now rewrite app_nil_r. - assumption.
  - rewrite <- app_assoc in E. pose proof (dead_stays evs ([Bytes more] ++ [Handler; Handler]) D) as Q. rewrite E in Q. discriminate.
Qed.
(** What is waited for is short: at most 1025 bytes are held. *)
Theorem C80_bounded : forall evs, is_bytes (stream evs) -> c_phase (play' (evs ++ [Handler; Handler])) = Waiting -> zlen (c_in (play' (evs ++ [Handler; Handler]))) <= 1025.
Proof.
  intros evs B W. destruct (any_schedule text6 evs B) as (_ & G). unfold play in *. rewrite fold_left_app in *. cbn [fold_left step] in *. now apply whole_waits.
Qed.
(** The bytes determine the request: its end, host, port and replies. *)
Theorem C80_unambiguous : forall q o h p r q' o' h' p' r', is_bytes (q ++ r) -> asks text6 q o h p -> asks text6 q' o' h' p' -> q ++ r = q' ++ r' ->
  q = q' /\ o = o' /\ h = h' /\ p = p' /\ r = r'.
Proof.
  intros q o h p r q' o' h' p' r' B A A' E. destruct (whole_asks text6 q o h p r) as (a & W); [apply is_bytes_app in B; tauto|assumption|]. rewrite E in B. destruct (whole_asks text6 q' o' h' p' r') as (a' & W'); [apply is_bytes_app in B; tauto|assumption|].
  rewrite E in W. rewrite W in W'. injection W' as -> -> _ -> ->. splits; auto. now apply app_inv_tail in E.
Qed.

(** ** Remote dynamic forwarding *)
Section Rev.
Variable perm : Type.
Variable open_match : perm -> list Z -> Z -> bool.
Variable admin : list perm.
Variable connects : list Z -> Z -> bool.
Notation rplay' := (rplay text6 perm open_match admin connects).
(** The client connects only to what was asked for and is permitted (PermitRemoteOpen). *)
Theorem C80_remote : forall w evs h p, is_bytes (stream (seen evs)) -> r_phase (rplay' w evs) = RConnecting h p ->
  (admin = [] \/ exists a, In a admin /\ open_match a h p = true) /\
  exists q, stream (seen evs) = q ++ r_out (rplay' w evs) /\ asks text6 q (r_sent (rplay' w evs) ++ r_in (rplay' w evs)) h p.
Proof.
  intros w evs h p B P. pose proof (rplay_like text6 perm open_match admin connects w evs) as L. unfold like in L. rewrite P in L. destruct L as (E & K). split.
  - apply andb_true_iff in K as (K & _). unfold permitted in K. destruct admin as [|a l]; [left; reflexivity|]. right. now apply existsb_exists in K.
  - destruct (C80_opens (seen evs) h p B) as (q & S & A); [now rewrite E|]. rewrite E in S, A. cbn [c_in c_out] in *. exists q. auto.
Qed.
(** A complete request that is permitted and can be connected is served unless the
    peer has ended the channel. *)
Theorem C80_remote_delivered : forall w evs q o h p r, is_bytes (stream (seen evs)) -> ~ In REof evs -> stream (seen evs) = q ++ r -> asks text6 q o h p ->
  let s := rplay' w (evs ++ [RHandler; RHandler]) in
  if permitted perm open_match admin h p && connects h p then r_phase s = RConnecting h p /\ r_out s = r /\ r_sent s ++ r_in s = o else r_phase s = RClosed.
Proof.
  intros w evs q o h p r B N S A s. assert (N' : ~ In REof (evs ++ [RHandler; RHandler])) by (rewrite in_app_iff; intros [I|[I|[I|[]]]]; [auto|discriminate|discriminate]).
  pose proof (rplay_like text6 perm open_match admin connects w (evs ++ [RHandler; RHandler])) as L. fold s in L. rewrite seen_app in L. cbn [seen] in L. destruct (C80_delivered _ _ _ _ _ _ B S A) as (a & E). rewrite E in L. unfold like in L. pose proof (no_eof text6 perm open_match admin connects w _ N') as Z0. fold s in Z0.
  destruct (r_phase s) as [|h' p'|] eqn:P.
  - discriminate. - destruct L as (L & K). injection L as <- <- _ -> ->. rewrite K. auto.
  - destruct L as [L|[L|(h' & p' & L & K)]]; [congruence|discriminate|]. cbn [c_phase] in L. injection L as <- <-. now rewrite K.
Qed.
(** The replies stay within the window the peer granted. *)
Theorem C80_remote_window : forall w evs, 0 <= w -> (forall n, In (RAdjust n) evs -> 0 <= n) -> zlen (r_sent (rplay' w evs)) <= w + adjusted evs.
Proof. intros w evs W N. destruct (window_sum text6 perm open_match admin connects w evs W N). lia. Qed.
End Rev.
End Props.
Print Assumptions C80_opens.
Print Assumptions C80_delivered.
Print Assumptions C80_segmentation.
Print Assumptions C80_refused.
Print Assumptions C80_bounded.
Print Assumptions C80_unambiguous.
Print Assumptions C80_remote.
Print Assumptions C80_remote_delivered.
Print Assumptions C80_remote_window.

(** The text of an address is its dotted decimal form, and only that. *)
Theorem C80_address : forall a b c d s, is_bytes [a; b; c; d] -> (ipv4_text s [a; b; c; d] <-> s = dotted a b c d).
Proof. intros a b c d s B. split; [now apply dotted_only|]. intros ->. now apply dotted_text. Qed.
Print Assumptions C80_address.

(** ** Cases *)
Definition greet : list Z := [5; 1; 0].
Definition ask_name (n : list Z) (p : Z) : list Z := [5; 1; 0; 3; zlen n] ++ n ++ be_enc 2 p.
(** A request cut in the middle, with data behind it *)
Example C80_met5 : play (fun _ => []) [Bytes [5; 1]; Handler; Bytes ([0] ++ ztake 7 (ask_name (bs "example") 443)); Handler; Handler; Bytes (zdrop 7 (ask_name (bs "example") 443) ++ bs "GET"); Handler] =
  mkC (Opening (bs "example") 443) true (bs "GET") [5; 0; 5; 0; 0; 1; 0; 0; 0; 0; 0; 0].
Proof. reflexivity. Qed.
Example C80_met4 : play (fun _ => []) [Bytes [4; 1; 0; 80; 192; 0; 2; 17; 98; 111; 98; 0; 1; 2]; Handler] =
  mkC (Opening (bs "192.0.2.17") 80) false [1; 2] [0; 90; 0; 0; 0; 0; 0; 0].
Proof. reflexivity. Qed.
Example C80_dead_met : c_phase (play (fun _ => []) [Bytes [5; 1; 2]; Handler]) = Dead.
Proof. reflexivity. Qed.
Example C80_remote_met : r_phase (rplay (fun _ => []) unit (fun _ h p => beqb h (bs "example") && (p =? 443)) [tt] (fun _ _ => true) 100 [RBytes (greet ++ ask_name (bs "example") 443); RHandler; RHandler]) = RConnecting (bs "example") 443 /\
  r_phase (rplay (fun _ => []) unit (fun _ h p => beqb h (bs "example") && (p =? 443)) [tt] (fun _ _ => true) 100 [RBytes (greet ++ ask_name (bs "example") 22); RHandler; RHandler]) = RClosed.
Proof. split; reflexivity. Qed.
(** The client is told that it is connected before anybody has been asked to. *)
Theorem C80_told_early_refuted : exists evs h p, c_phase (play (fun _ => []) evs) = Opening h p /\ c_out (play (fun _ => []) evs) = [0; 90; 0; 0; 0; 0; 0; 0].
Proof. exists [Bytes [4; 1; 0; 80; 192; 0; 2; 17; 0]; Handler], (bs "192.0.2.17"), 80. split; reflexivity. Qed.
Print Assumptions C80_told_early_refuted.
(** A name with a NUL in it is cut there, not refused. *)
Theorem C80_nul_refuted : exists evs p, stream evs = greet ++ ask_name (bs "good" ++ [0] ++ bs ".evil") p /\ c_phase (play (fun _ => []) evs) = Opening (bs "good") p.
Proof. exists [Bytes (greet ++ ask_name (bs "good" ++ [0] ++ bs ".evil") 80); Handler; Handler], 80. split; reflexivity. Qed.
Print Assumptions C80_nul_refuted.
(** After agreeing on a SOCKS5 method a SOCKS4 request is served. *)
Theorem C80_mixed_refuted : exists evs h p, stream evs = greet ++ [4; 1; 0; 80; 192; 0; 2; 17; 0] /\ c_phase (play (fun _ => []) evs) = Opening h p.
Proof. exists [Bytes (greet ++ [4; 1; 0; 80; 192; 0; 2; 17; 0]); Handler; Handler], (bs "192.0.2.17"), 80. split; reflexivity. Qed.
Print Assumptions C80_mixed_refuted.
