(** C63: a server's host key is accepted only for a reason: the exemption for
    the local machine, a known-hosts entry, validated DNS records, the policy
    for new hosts, or checking being off (and then with everything a man in the
    middle could use switched off). *)
From Coq Require Import String.
From Verif Require Import Base Text MatchModel HostfileModel HostfileSpec HostfileProof2 HostcheckModel HostcheckSpec HostcheckProof HostcheckProof2 HostcheckProof3 HostcheckProof4 HostcheckProof5.
Local Open Scope Z_scope.

(** ** The check *)
(** Every accepted key has a basis. *)
Theorem C63_accepted : forall cf en hostname port k ro w w', plain_drops en ->
  check_host_key cf en hostname port k ro w = HAccept w' -> basis cf en hostname port k w w'.
Proof. intros cf en hostname port k ro w w' Pd H. exact (proj1 (check_basis cf en Pd hostname port k ro w w' H)). Qed.
Print Assumptions C63_accepted.

Definition not_exempt (cf : hconf) (en : henv) : Prop := ~ (hc_local_exempt cf = true /\ en_local en = true /\ hc_alias cf = None).

(** With StrictHostKeyChecking=yes only a key that is vouched for. *)
Theorem C63_strict : forall cf en hostname port k ro w w', plain_drops en -> not_exempt cf en -> hc_strict cf = STRICT_YES ->
  check_host_key cf en hostname port k ro w = HAccept w' ->
  exists portless es j, in_scope cf en hostname port portless es k j /\ permitted cf j /\ vouched cf en hostname es j.
Proof.
  intros cf en hostname port k ro w w' Pd Nx St H. apply C63_accepted in H; [|exact Pd]. destruct H as [A B C|pl j es Sc Pe V|j es Sc Pe Cn U Uf Bc St2|pl j es Sc Pe M O].
  - exfalso. apply Nx. auto.
  - exists pl, es, j. auto.
  - contradiction.
  - rewrite St in O. discriminate.
Qed.
Print Assumptions C63_strict.

(** A key that is marked as revoked under the host's name, itself or through
    the authority that signed it, is not accepted unless checking is off. *)
Theorem C63_revoked : forall cf en hostname port k ro w w' es, plain_drops en -> not_exempt cf en -> hc_strict cf <> STRICT_OFF ->
  host_entries cf en hostname port false es -> permitted cf k -> marked es k -> check_host_key cf en hostname port k ro w <> HAccept w'.
Proof.
  intros cf en hostname port k ro w w' es Pd Nx St He Pk M H. apply C63_accepted in H; [|exact Pd].
  assert (Sh : forall es' j, host_entries cf en hostname port false es' -> shown cf en es' k j -> j = k /\ es' = es).
  { intros es' j He' S. assert (es' = es) as -> by (unfold host_entries in *; congruence). destruct S as [S|(_ & _ & S)]; [now split|]. exfalso. auto. }
  destruct H as [A B C|pl j es' [He' Sc] Pe V|j es' [He' Sc] Pe Cn U Uf Bc St2|pl j es' Sc Pe _ O].
  - apply Nx. auto.
  - destruct pl.
    + destruct Sc as (_ & _ & _ & _ & j' & es2 & He2 & S2 & _ & U). destruct (Sh _ _ He2 S2) as [-> ->]. exact (proj1 U M).
    + destruct (Sh _ _ He' Sc) as [-> ->]. exact (proj1 V M).
  - destruct (Sh _ _ He' Sc) as [-> ->]. exact (proj1 U M).
  - contradiction.
Qed.
Print Assumptions C63_revoked.

(** Neither is a plain key where another one is listed. *)
Theorem C63_changed : forall cf en hostname port k ro w w' es, plain_drops en -> not_exempt cf en -> hc_strict cf <> STRICT_OFF ->
  host_entries cf en hostname port false es -> conflicting es k -> check_host_key cf en hostname port k ro w <> HAccept w'.
Proof.
  intros cf en hostname port k ro w w' es Pd Nx St He (Ck & Nm & No & So) H. apply C63_accepted in H; [|exact Pd].
  assert (Sh : forall es' j, host_entries cf en hostname port false es' -> shown cf en es' k j -> j = k /\ es' = es).
  { intros es' j He' S. split; [|unfold host_entries in *; congruence]. destruct S as [S|(S & _)]; [exact S|contradiction]. }
  destruct H as [A B C|pl j es' [He' Sc] Pe V|j es' [He' Sc] Pe Cn U Uf Bc St2|pl j es' Sc Pe _ O].
  - apply Nx. auto.
  - destruct pl.
    + destruct Sc as (_ & _ & _ & _ & j' & es2 & He2 & S2 & _ & U). destruct (Sh _ _ He2 S2) as [-> ->]. exact (proj2 (proj2 U) Ck So).
    + destruct (Sh _ _ He' Sc) as [-> ->]. exact (No (proj1 (proj2 V))).
  - destruct (Sh _ _ He' Sc) as [-> ->]. exact (proj2 (proj2 U) Ck So).
  - contradiction.
Qed.
Print Assumptions C63_changed.

(** If another key is listed for the address, the user is asked (or checking is
    off). *)
Theorem C63_address : forall cf en hostname port k ro w w' ip ik, plain_drops en -> not_exempt cf en ->
  check_host_key cf en hostname port k ro w = HAccept w' -> hk_cert k = None -> ho_check_ip (hw_o w') = true ->
  file_ip cf en port = Some ip -> lookup en false true ip = Some ik -> conflicting ik k ->
  hc_strict cf = STRICT_OFF \/ (hc_strict cf = STRICT_ASK /\ asked cf None w w').
Proof.
  intros cf en hostname port k ro w w' ip ik Pd Nx H Ck Ip Fi Li Cl.
  destruct (check_ok cf en Pd false port _ (portless_nested cf en Pd hostname) (portless_adds cf en Pd hostname) hostname k ro w) as (_ & _ & _ & _ & _ & A & _).
  eapply A; [exact H|exact Nx|exact Ck|split; eassumption|exact Cl|exact Ip].
Qed.
Print Assumptions C63_address.

(** What is written to the known-hosts file: a plain permitted key that the
    server showed; for a new host only if the policy allows it and, if it says
    to ask, after the user confirmed; for a known host only its address. *)
Theorem C63_recorded : forall cf en hostname port k ro w n j, plain_drops en ->
  let w' := world_of (check_host_key cf en hostname port k ro w) in
  exists es, hw_log w' = hw_log w ++ es /\ (In (HAdd n j) es ->
    ro = RDRW /\ hc_user_files cf <> 0 /\ (forall c, In c hostname -> bad_char c = false) /\ not_exempt cf en /\ hk_cert j = None /\ permitted cf j /\
    exists hs ip, let host := file_host cf hostname port in
      in_scope cf en hostname port false hs k j /\ file_ip cf en port = Some ip /\
      ((n = ip /\ ho_check_ip (hw_o w) = true /\ vouched cf en hostname hs j) \/
       (unknown hs j /\ hc_strict cf <> STRICT_YES /\ (hc_strict cf = STRICT_ASK -> exists fp, en_fp en j = Some fp /\ asked cf (Some fp) w w') /\
        (n = host \/ (ho_check_ip (hw_o w) = true /\ (n = ip \/ n = ztake 999 (host ++ bs "," ++ ip))))))).
Proof.
  intros cf en hostname port k ro w n j Pd w'.
  destruct (check_ok cf en Pd false port _ (portless_nested cf en Pd hostname) (portless_adds cf en Pd hostname) hostname k ro w) as (_ & _ & _ & _ & _ & _ & (es & L & A)).
  exists es. split; [exact L|]. intros I. destruct (A n j I) as (Bc & Nx & hs & ip & B1 & B2 & B3 & B4). destruct B4 as (_ & C1 & C2 & C3 & C4 & C5).
  split; [exact C1|]. split; [exact C3|]. split.
  { intros c Ic. destruct (bad_char c) eqn:B; [|reflexivity]. exfalso. assert (X : existsb bad_char hostname = true) by (apply existsb_exists; exists c; now split). congruence. }
  split; [exact Nx|]. split; [exact C2|]. split; [exact C4|]. exists hs, ip. cbv zeta. split; [split; [exact B1|exact B3]|]. split; [exact B2|exact C5].
Qed.
Print Assumptions C63_recorded.

(** Options are only switched off; unless checking is off, and whenever the key
    is refused, authentication methods and forwardings stay as they were. *)
Theorem C63_options : forall cf en hostname port k ro w, plain_drops en ->
  let r := check_host_key cf en hostname port k ro w in
  tighter (hw_o w) (hw_o (world_of r)) /\
  (hc_strict cf <> STRICT_OFF \/ (exists w', r = HRefuse w') -> forall o o', o = hw_o w -> o' = hw_o (world_of r) ->
     ho_password o' = ho_password o /\ ho_kbdint o' = ho_kbdint o /\ ho_agent o' = ho_agent o /\ ho_x11 o' = ho_x11 o /\
     ho_local o' = ho_local o /\ ho_remote o' = ho_remote o /\ ho_tun o' = ho_tun o).
Proof.
  intros cf en hostname port k ro w Pd r. destruct (check_world cf en Pd hostname port k ro w) as [(_ & _ & T) S]. split; [exact T|]. intros X o o' -> ->. exact (S X).
Qed.
Print Assumptions C63_options.

(** A permitted key that is vouched for is accepted, whatever the policy. *)
Theorem C63_complete : forall cf en hostname port k ro w es ip,
  host_entries cf en hostname port false es -> file_ip cf en port = Some ip -> permitted cf k -> vouched cf en hostname es k ->
  (hk_cert k = None -> ho_check_ip (hw_o w) = true -> exists ik, lookup en false true ip = Some ik /\ ~ conflicting ik k) ->
  exists w', check_host_key cf en hostname port k ro w = HAccept w'.
Proof. intros cf en hostname port k ro w es ip He Fi Pe V Ni. eapply check_complete; eassumption. Qed.
Print Assumptions C63_complete.

(** It comes to an end. *)
Theorem C63_ends : forall cf en hostname port k ro w w', plain_drops en -> check_host_key cf en hostname port k ro w <> HLoop w'.
Proof. intros cf en hostname port k ro w w' Pd. now apply check_no_loop. Qed.
Print Assumptions C63_ends.
(** The client crashes at most where the host has another key and the key is
    marked as revoked for the address. *)
Theorem C63_crash : forall cf en hostname port k ro w w', plain_drops en -> check_host_key cf en hostname port k ro w = HCrash w' ->
  exists portless es ip ik j, form en k j /\ host_entries cf en hostname port portless es /\
    file_ip cf en (if portless then 0 else port) = Some ip /\ lookup en portless true ip = Some ik /\ marked ik j /\ conflicting es j.
Proof. intros cf en hostname port k ro w w' Pd. now apply check_crash. Qed.
Print Assumptions C63_crash.

(** ** The connection *)
(** The key of every key exchange the client completes was accepted in its own
    right in this or in an earlier exchange of the connection. *)
Theorem C63_connection : forall cf hostname rsa_ok xs w prev' w', Forall (fun x => plain_drops (fst (fst x))) xs ->
  kex_history cf hostname rsa_ok xs None w = KGoOn prev' w' ->
  forall i en want k, nth_error xs i = Some (en, want, k) ->
    (hk_type k = fst want /\ (fst want = KEY_ECDSA -> hk_nid k = snd want) /\ rsa_ok k = true) /\
    exists i0 en0 want0 k0 w1 w2, (i0 <= i)%nat /\ nth_error xs i0 = Some (en0, want0, k0) /\ identical k0 k /\
      tighter (hw_o w) (hw_o w1) /\ own_reason cf en0 hostname k0 w1 w2.
Proof.
  intros cf hostname rsa_ok xs w prev' w' Pd H i en want k N.
  destruct (history_ok cf hostname rsa_ok xs [] None w w prev' w' Pd) as [A _]; [apply evolves_refl|discriminate|exact H|].
  destruct (A i en want k N) as ((en0 & want0 & k0 & w1 & w2 & I & Id & E1 & E2 & R) & T). split; [exact T|]. cbn [app] in I.
  apply In_nth_error in I. destruct I as [i0 I]. exists i0, en0, want0, k0, w1, w2.
  assert (Li : (i0 < S i)%nat).
  { assert (X : (i0 < length (firstn (S i) xs))%nat) by (apply nth_error_Some; congruence). rewrite firstn_length in X. lia. }
  split; [lia|]. split; [|split; [exact Id|split; [apply E1|exact R]]].
  rewrite <- (firstn_skipn (S i) xs). rewrite nth_error_app1; [exact I|]. apply nth_error_Some. congruence.
Qed.
Print Assumptions C63_connection.

(** ** DNS *)
Theorem C63_dns : forall en k, sshfp_alg (hk_type k) <> 0 ->
  (forall v rs, en_rrset en = Some (v, rs) -> Forall (fun r => zlen r < 2 \/ exists alg dtype digest, r = sshfp alg dtype digest /\ (dtype = 1 \/ dtype = 2) /\ en_digest en dtype k <> None) rs) ->
  (dns_says en k <-> exists g, verify_host_key_dns en k = DnsRet 0 g /\ Z.land g 1 <> 0 /\ Z.land g 2 <> 0 /\ Z.land g 4 <> 0).
Proof.
  intros en k Ka Wf. assert (Fl : forall g, dns_flags g = true <-> Z.land g 1 <> 0 /\ Z.land g 2 <> 0 /\ Z.land g 4 <> 0).
  { intros g. unfold dns_flags. rewrite !andb_true_iff, !negb_true_iff, !Z.eqb_neq. tauto. }
  split.
  - intros D. destruct (dns_complete en k D Ka Wf) as (g & V & F). exists g. split; [exact V|now apply Fl].
  - intros (g & V & F). eapply dns_ok; [exact V|reflexivity|now apply Fl].
Qed.
Print Assumptions C63_dns.

(** ** The file of revoked keys *)
Theorem C63_revocation_file : forall krl read file k, (forall s, read s <> inr KEY_NOT_FOUND_ERR) ->
  (sshkey_check_revoked krl read file k = 0 <->
   krl k = 0 \/
   (krl k = BAD_MAGIC_ERR /\ exists lines, file = Some lines /\
    forall l rest, In l lines -> key_line l rest -> read rest = inr KEY_LENGTH_ERR \/ exists pub, read rest = inl pub /\ ~ same_public k pub /\ ~ signed_by k pub)).
Proof.
  intros krl read file k Rn. unfold sshkey_check_revoked. destruct (krl k =? BAD_MAGIC_ERR) eqn:B; cbn [negb].
  2:{ split; [now left|]. intros [X|[X _]]; [exact X|]. apply Z.eqb_neq in B. contradiction. }
  apply Z.eqb_eq in B. rewrite B. destruct file as [lines|]; cbn [sshkey_in_file].
  2:{ split; [discriminate|]. intros [X|(_ & ls & X & _)]; discriminate. }
  destruct (in_file_ok read k lines) as [A1 A2]. split.
  - intros H. right. split; [reflexivity|]. exists lines. split; [reflexivity|]. intros l rest I K.
    assert (Nf : in_file_lines read k lines = KEY_NOT_FOUND_ERR).
    { destruct (in_file_lines read k lines =? 0) eqn:Z0; [discriminate|]. destruct (in_file_lines read k lines =? KEY_NOT_FOUND_ERR) eqn:Z1; [lia|]. exfalso. lia. }
    destruct (A2 Nf l rest I K) as [R|[R|[(pub & R & Nh)|(l' & rest' & _ & _ & R)]]]; [now left|now elim (Rn rest)| |now elim (Rn rest')].
    right. exists pub. split; [exact R|]. unfold hits in Nh. tauto.
  - intros [X|(_ & ls & [= <-] & F)]; [discriminate|].
    assert (Nf : in_file_lines read k lines = KEY_NOT_FOUND_ERR).
    { clear A1 A2. induction lines as [|l lines IH]; [reflexivity|]. cbn [in_file_lines]. assert (F' : forall l0 rest, In l0 lines -> key_line l0 rest -> read rest = inr KEY_LENGTH_ERR \/ exists pub, read rest = inl pub /\ ~ same_public k pub /\ ~ signed_by k pub) by (intros l0 rest I; apply F; now right).
      match goal with |- context [if ?b then _ else _] => destruct b eqn:Sk end; [exact (IH F')|]. apply key_line_ok in Sk. destruct (F l (skip_blank l) (or_introl eq_refl) Sk) as [R|(pub & R & N1 & N2)]; rewrite R.
      - rewrite Z.eqb_refl. exact (IH F').
      - destruct (equal_public k pub || (sshkey_is_cert k && ca_is k pub)) eqn:Hi; [|exact (IH F')]. apply hits_iff in Hi. destruct Hi; contradiction. }
    rewrite Nf. reflexivity.
Qed.
Print Assumptions C63_revocation_file.

(** ** The entries are those of the files (C45) *)
Theorem C63_files : forall P fs host es k, hp_ok P -> good_files fs -> load_all P host (map tfile fs) = Some es ->
  (marked es k <-> revoked P fs host k) /\ (on_list es k <-> trusted P fs host k) /\ (some_key es <-> exists e, knows P fs host MRK_NONE e).
Proof.
  intros P fs host es k HP G L. destruct (load_text P host fs HP G) as (es' & E & I). rewrite L in E. injection E as <-.
  assert (IK : forall m q, knows P fs host m q <-> exists e, In e es /\ he_marker e = m /\ he_key e = q).
  { intros m q. split.
    - intros (f & F1 & F2). exists (mkHE q m (note_of f)). split; [|auto]. apply I. exists f. auto.
    - intros (e & E1 & <- & <-). apply I in E1. destruct E1 as (f & F1 & _ & F2). exists f. auto. }
  split; [|split].
  - unfold marked, revoked. split.
    + intros (e & E1 & E2 & E3). exists (he_key e). split; [|exact E3]. apply IK. exists e. auto.
    + intros (r & R1 & R2). apply IK in R1. destruct R1 as (e & E1 & E2 & <-). exists e. auto.
  - unfold on_list, trusted. split.
    + intros (e & E1 & [(E2 & E3 & E4)|(E3 & E4)]); [left; split; [exact E2|]|right]; exists (he_key e); (split; [apply IK; exists e; auto|exact E4]).
    + intros [(C & e & E1 & E2)|(ca & E1 & E2)]; apply IK in E1; destruct E1 as (x & X1 & X2 & <-); exists x; auto 10.
  - unfold some_key. split.
    + intros (e & E1 & E2). exists (he_key e). apply IK. exists e. auto.
    + intros (q & Q). apply IK in Q. destruct Q as (e & E1 & E2 & _). exists e. auto.
Qed.
Print Assumptions C63_files.

(** ** Examples and findings *)
Definition key (n : Z) : hkey := mkHK 3 0 (bs "ssh-ed25519") [n] [n] None.
Definition off : hopts := mkHO false true true true true true 1 1 1.
Definition conf (strict : Z) : hconf := mkHC false None false (bs "ssh-ed25519,ecdsa-sha2-nistp256") strict false false false 0 false 22 1.
Definition around (files : list Z -> list hentry) : henv :=
  mkEnv false (Some (bs "10.0.0.1")) files None (fun _ => false) (fun _ _ => false) (fun k => Some (mkHK 3 0 (hk_name k) (hk_id k) (hk_id k) None))
    (fun k => Some (bs "SHA256:" ++ hk_id k)) (fun _ => true) (fun _ => 0) false None (fun _ k => Some (hk_id k)) (fun _ => 0).
Lemma around_drops : forall f, plain_drops (around f).
Proof. intros f k j H. injection H as <-. reflexivity. Qed.
Definition listing (l : list (string * marker * Z)) (name : list Z) : list hentry :=
  map (fun x => mkHE (key (snd x)) (snd (fst x)) 0) (filter (fun x => beqb name (bs (fst (fst x)))) l).

(** Asked about an unknown host, the user types an unclear answer, then yes. *)
Example C63_asks : check_host_key (conf STRICT_ASK) (around (listing [])) (bs "h") 22 (key 1) RDRW (mkHW off [bs "sure"; bs " YES "; bs "x"] []) =
  HAccept (mkHW off [bs "x"] [HAsk (Some (bs "SHA256:" ++ [1])) true; HAdd (bs "h") (key 1)]).
Proof. reflexivity. Qed.
(** The same host known: accepted under the strictest policy, nothing asked. *)
Example C63_known : check_host_key (conf STRICT_YES) (around (listing [("h"%string, MRK_NONE, 1)])) (bs "h") 22 (key 1) RDRW (mkHW off [] []) = HAccept (mkHW off [] []).
Proof. reflexivity. Qed.
(** Changed and revoked: refused, except with checking off. *)
Example C63_refuses :
  check_host_key (conf STRICT_NEW) (around (listing [("h"%string, MRK_NONE, 2)])) (bs "h") 22 (key 1) RDRW (mkHW off [] []) = HRefuse (mkHW off [] []) /\
  check_host_key (conf STRICT_NEW) (around (listing [("h"%string, MRK_REVOKE, 1); ("h"%string, MRK_NONE, 1)])) (bs "h") 22 (key 1) RDRW (mkHW off [] []) = HRefuse (mkHW off [] []) /\
  check_host_key (conf STRICT_OFF) (around (listing [("h"%string, MRK_NONE, 2)])) (bs "h") 22 (key 1) RDRW (mkHW off [] []) =
    HAccept (mkHW (mkHO false false false false false false 0 0 0) [] []).
Proof. repeat split; reflexivity. Qed.
(** The name without the port vouches for a host on another port. *)
Example C63_other_port : check_host_key (conf STRICT_YES) (around (listing [("h"%string, MRK_NONE, 1)])) (bs "h") 2222 (key 1) RDRW (mkHW off [] []) =
  HAccept (mkHW (mkHO false false true true true true 1 1 1) [] []).
Proof. reflexivity. Qed.
(** Two exchanges with the same key, then one with another. *)
Example C63_rekey :
  let x n := (around (listing [("h"%string, MRK_NONE, 1)]), (3, 0), key n) in
  kex_history (conf STRICT_YES) (bs "h") (fun _ => true) [x 1; x 1] None (mkHW off [] []) = KGoOn (Some (key 1)) (mkHW off [] []) /\
  kex_history (conf STRICT_YES) (bs "h") (fun _ => true) [x 1; x 2] None (mkHW off [] []) = KEnd.
Proof. split; reflexivity. Qed.

(** The client can crash: the host has another key, the address lists the shown
    key as revoked; ip_found is a null pointer there. *)
Theorem C63_crash_refuted : exists cf en hostname k w, plain_drops en /\ hc_strict cf = STRICT_ASK /\
  check_host_key cf en hostname 22 k RDRW w = HCrash w.
Proof.
  exists (conf STRICT_ASK), (around (listing [("h"%string, MRK_NONE, 2); ("10.0.0.1"%string, MRK_REVOKE, 1)])), (bs "h"), (key 1), (mkHW (set_check_ip true off) [] []).
  split; [apply around_drops|]. split; reflexivity.
Qed.
Print Assumptions C63_crash_refuted.
(** A refused key may have been recorded: a new host whose address has another
    key is added after the first question; the second one is answered no. *)
Theorem C63_recorded_refused_refuted : exists cf en hostname k w w', plain_drops en /\ hc_strict cf = STRICT_ASK /\
  check_host_key cf en hostname 22 k RDRW w = HRefuse w' /\ In (HAdd hostname k) (hw_log w') /\ hw_log w = [].
Proof.
  exists (conf STRICT_ASK), (around (listing [("10.0.0.1"%string, MRK_NONE, 2)])), (bs "h"), (key 1), (mkHW (set_check_ip true off) [bs "yes"; bs "no"] []), (mkHW (set_check_ip true off) [] [HAsk (Some (bs "SHA256:" ++ [1])) true; HAdd (bs "h") (key 1); HAsk None false]).
  split; [apply around_drops|]. split; [reflexivity|]. split; [reflexivity|]. split; [right; now left|reflexivity].
Qed.
Print Assumptions C63_recorded_refused_refuted.
(** A key revoked under the name without the port is new on another port, and
    accept-new accepts it. *)
Theorem C63_other_port_revoked_refuted : exists cf en hostname k w w', plain_drops en /\ hc_strict cf = STRICT_NEW /\
  lookup en false false hostname = Some [mkHE k MRK_REVOKE 0] /\ check_host_key cf en hostname 2222 k RDRW w = HAccept w'.
Proof.
  exists (conf STRICT_NEW), (around (listing [("h"%string, MRK_REVOKE, 1)])), (bs "h"), (key 1), (mkHW off [] []). eexists.
  split; [apply around_drops|]. split; [reflexivity|]. split; reflexivity.
Qed.
Print Assumptions C63_other_port_revoked_refuted.
(** A revocation for the address alone is not honoured. *)
Theorem C63_address_revoked_refuted : exists cf en hostname k w w', plain_drops en /\ hc_strict cf = STRICT_YES /\ ho_check_ip (hw_o w) = true /\
  lookup en false true (bs "10.0.0.1") = Some [mkHE k MRK_REVOKE 0] /\ file_ip cf en 22 = Some (bs "10.0.0.1") /\ check_host_key cf en hostname 22 k RDRW w = HAccept w'.
Proof.
  exists (conf STRICT_YES), (around (listing [("h"%string, MRK_NONE, 1); ("10.0.0.1"%string, MRK_REVOKE, 1)])), (bs "h"), (key 1), (mkHW (set_check_ip true off) [] []). eexists.
  split; [apply around_drops|]. repeat (split; [reflexivity|]). reflexivity.
Qed.
Print Assumptions C63_address_revoked_refuted.
