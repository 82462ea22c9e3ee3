(** C24: strict key exchange. *)
From Verif Require Import Base PacketModel PacketToy FlowModel FlowProof.
From Verif Require Import StrictModel StrictSpec StrictProof.

(** C24 (i).  For every sequence of messages: if the first key exchange comes to
    its end with strict key exchange agreed, then what was received is exactly
    the exchange in order, with KEXINIT as the very first packet, and the receive
    sequence number restarts at zero. *)
Theorem C24_exact : forall server l m k k',
  recv_all (fresh server) l = Some k -> k_initial k = true ->
  receive k m = Some k' -> k_initial k' = false -> k_strict k' = true ->
  in_order server (l ++ [m]) /\ k_seq k' = 0.
Proof.
  intros server l m k k' H Hi Hr Hf Hs.
  destruct (recv_inv server l [] (fresh server) k eq_refl (fresh_inv server) H) as [HI Hsv]. cbn [app] in HI.
  destruct (step_inv server l k m k' Hsv HI Hr) as [_ HF]. exact (HF Hi Hf Hs).
Qed.

(** C24 (ii).  At every moment of a strict first exchange, what was received so
    far is the beginning of an exchange in order: any other message has already
    ended the connection. *)
Theorem C24_prefix : forall server l k,
  recv_all (fresh server) l = Some k -> k_initial k = true -> k_strict k = true ->
  exists l', in_order server (l ++ l').
Proof.
  intros server l k H Hi Hs.
  destruct (recv_inv server l [] (fresh server) k eq_refl (fresh_inv server) H) as [HI _]. cbn [app] in HI.
  destruct HI as [? ? | ? ? | ki guess rest todo _ _ Hh Hki _ Hm _ _ Hg |]; try congruence.
  set (mk := fun t => mkMsg t true false false false false).
  assert (Hmk : forall l, map m_ty (map mk l) = l) by (intros x; rewrite map_map; apply map_id).
  assert (HE : map m_ty (map mk (todo ++ [21])) = todo ++ [21]) by apply Hmk.
  destruct (m_wrong_guess ki) eqn:Ew; [destruct Hg as [[G _]|(G1 & G2 & _)]|destruct Hg as [G _]].
  - exists (map mk (todo ++ [21])), ki, guess, (rest ++ map mk (todo ++ [21])). rewrite Ew. splits; auto.
    + rewrite Hh. cbn [app]. now rewrite <- app_assoc.
    + rewrite map_app, HE, app_assoc, Hm. reflexivity.
  - exists (mk 2 :: map mk (todo ++ [21])), ki, [mk 2], (map mk (todo ++ [21])). rewrite Ew. splits; auto.
    + rewrite Hh, G1, G2. reflexivity.
    + rewrite HE. rewrite G2 in Hm. cbn [map app] in Hm. now rewrite Hm.
  - exists (map mk (todo ++ [21])), ki, guess, (rest ++ map mk (todo ++ [21])). rewrite Ew. splits; auto.
    + rewrite Hh. cbn [app]. now rewrite <- app_assoc.
    + now rewrite G.
    + rewrite map_app, HE, app_assoc, Hm. reflexivity.
Qed.

(** C24 (iii).  Conversely an exchange in order completes: when every handler
    accepts the contents it sees and no DISCONNECT is sent in place of the guess,
    the exchange ends, strict, with the receive sequence number at zero. *)
Theorem C24_completes : forall server ki guess rest,
  m_ty ki = 20 -> m_strict ki = true ->
  length guess = (if m_wrong_guess ki then 1%nat else 0%nat) ->
  (forall g, In g guess -> 1 < m_ty g <= 49) ->
  map m_ty rest = awaited server (m_gex ki) ++ [21] ->
  (forall m, In m (ki :: rest) -> m_ok m = true) ->
  exists k', recv_all (fresh server) (ki :: guess ++ rest) = Some k' /\ k_initial k' = false /\ k_done k' = true /\ k_strict k' = true /\ k_seq k' = 0.
Proof.
  intros server ki guess rest H20 Hst Hlg Hg Hty Hok.
  destruct (good_start server ki H20 Hst (Hok ki (or_introl eq_refl))) as (k & E & Hs & G).
  assert (Hlen : zlen (awaited server (m_gex ki)) <= 2) by (destruct server, (m_gex ki); cbn; lia).
  cbn [recv_all]. rewrite E. destruct (m_wrong_guess ki).
  - destruct guess as [|g [|? ?]]; try discriminate. cbn [app recv_all].
    destruct (good_skip k _ 1 g G) as (k1 & q1 & E1 & _ & G1 & Hq1); [lia|apply Hg; now left|]. rewrite E1.
    apply (good_rest (awaited server (m_gex ki)) k1 q1); auto; try lia. intros m Hm. apply Hok. now right.
  - destruct guess; [|discriminate]. cbn [app]. apply (good_rest (awaited server (m_gex ki)) k 1); auto; try lia.
    intros m Hm. apply Hok. now right.
Qed.

(** C24 (iv).  The sending side: whenever NEWKEYS is sent under strict key
    exchange, the send sequence number restarts at zero. *)
Theorem C24_send_restart : forall P (s s' : st P) pl,
  send_wrapped P s 21 pl = (s', None) -> x_strict (s_x P s) = true -> d_seq P (t_dir P (s_tx P s')) = 0.
Proof.
  intros P s s' pl H Hs. unfold send_wrapped in H.
  destruct (tx_emit P (x_initial (s_x P s)) (s_norekey P s) (s_tx P s) (repeat 0 5 ++ [21] ++ pl)) as [t [e|]]; [discriminate|].
  set (s1 := with_wire _ _ _) in H. assert (E : x_strict (s_x P s1) = true) by exact Hs.
  change (21 =? PacketModel.MSG_NEWKEYS) with true in H. cbn [andb] in H. rewrite E in H.
  unfold set_newkeys_out in H. cbn [with_tx s_x] in H. unfold install in H.
  destruct (x_out (s_x P s1)); [|discriminate]. destruct (p_init P (mac_started k) true); [|discriminate].
  injection H as <-. reflexivity.
Qed.

(** What does not hold.  "Every message other than the one expected next
    terminates the connection" has one exception: after a KEXINIT with a wrong
    guess, one message of any transport type is thrown away instead.  (The guess
    announcement is covered by the exchange hash, so an attacker cannot add it.) *)
Theorem C24_wrong_guess_refuted :
  exists ki m k k', m_ty ki = 20 /\ m_strict ki = true /\ m_ty m = 2 /\ ~ In (m_ty m) (awaited true (m_gex ki) ++ [21]) /\
    recv_all (fresh true) [ki] = Some k /\ k_initial k = true /\ k_strict k = true /\ receive k m = Some k'.
Proof.
  set (ki := mkMsg 20 true true false true false). set (m := mkMsg 2 true false false false false).
  assert (H : match recv_all (fresh true) [ki] with
              | Some k => k_initial k && k_strict k && match receive k m with Some _ => true | None => false end
              | None => false
              end = true) by (vm_compute; reflexivity).
  destruct (recv_all (fresh true) [ki]) as [k|] eqn:E1; [|discriminate].
  apply andb_true_iff in H as [H H3]. apply andb_true_iff in H as [H1 H2].
  destruct (receive k m) as [k'|] eqn:E2; [|discriminate].
  exists ki, m, k, k'. splits; auto. cbn. intuition congruence.
Qed.

(** After the first exchange an unexpected NEWKEYS is only answered with
    UNIMPLEMENTED, but it does restart the receive sequence number although the
    keys stay: such a peer makes sequence numbers repeat under one key. *)
Theorem C24_stray_newkeys_refuted :
  exists l k m k', recv_all (fresh true) l = Some k /\ k_strict k = true /\ k_initial k = false /\ k_seq k = 2 /\
    m_ty m = 21 /\ k_table k 21 <> HNewkeys /\ receive k m = Some k' /\ k_seq k' = 0.
Proof.
  set (t := fun n => mkMsg n true (n =? 20) false false false).
  assert (H : match recv_all (fresh true) (map t [20; 30; 21; 2; 2]) with
              | Some k => match receive k (t 21) with
                          | Some k' => k_strict k && negb (k_initial k) && (k_seq k =? 2) && (k_seq k' =? 0) &&
                                       match k_table k 21 with HNewkeys => false | _ => true end
                          | None => false
                          end
              | None => false
              end = true) by (vm_compute; reflexivity).
  destruct (recv_all (fresh true) (map t [20; 30; 21; 2; 2])) as [k|] eqn:E1; [|discriminate].
  destruct (receive k (t 21)) as [k'|] eqn:E2; [|discriminate].
  apply andb_true_iff in H as [H H5]. apply andb_true_iff in H as [H H4]. apply andb_true_iff in H as [H H3]. apply andb_true_iff in H as [H1 H2].
  exists (map t [20; 30; 21; 2; 2]), k, (t 21), k'. splits; auto; try lia.
  intros Q. rewrite Q in H5. discriminate.
Qed.

(** A client and a server exchange in strict order, with and without group
    exchange and wrong guess; without strict mode an injected IGNORE survives. *)
Definition ex_msg (gex guess strict : bool) (n : Z) : msg := mkMsg n true strict false guess gex.
Definition survives (server : bool) (l : list msg) : option (bool * bool * Z) :=
  option_map (fun k => (k_initial k, k_strict k, k_seq k)) (recv_all (fresh server) l).
Example C24_ex_client : survives false (map (ex_msg false false true) [20; 31; 21]) = Some (false, true, 0).
Proof. reflexivity. Qed.
Example C24_ex_server_gex : survives true (map (ex_msg true true true) [20; 30; 34; 32; 21]) = Some (false, true, 0).
Proof. reflexivity. Qed.
Example C24_ex_ignore_first : survives false (map (ex_msg false false true) [2; 20]) = None.
Proof. reflexivity. Qed.
Example C24_ex_ignore_later : survives false (map (ex_msg false false true) [20; 31; 2]) = None.
Proof. reflexivity. Qed.
Example C24_ex_lax : survives false (map (ex_msg false false false) [2; 20; 31; 2; 2; 21]) = Some (false, false, 6).
Proof. reflexivity. Qed.
Example C24_ex_hyps :
  match recv_all (fresh false) (map (ex_msg false false true) [20; 31]) with
  | Some k => k_initial k && match receive k (ex_msg false false true 21) with
                             | Some k' => negb (k_initial k') && k_strict k'
                             | None => false
                             end
  | None => false
  end = true.
Proof. vm_compute. reflexivity. Qed.

Print Assumptions C24_exact.
Print Assumptions C24_prefix.
Print Assumptions C24_completes.
Print Assumptions C24_send_restart.
Print Assumptions C24_wrong_guess_refuted.
Print Assumptions C24_stray_newkeys_refuted.
