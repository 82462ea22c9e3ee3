(** C82: in X11 forwarding the server learns a fake cookie only, and only who shows it
    reaches the display, with the real one put in its place. *)
From Coq Require Import String.
From Verif Require Import Base Text MiscNumModel MiscNumSpec XcookieModel XcookieSpec XcookieProof XcookieProof2.
Local Open Scope Z_scope.

(** The display gets data exactly if what arrived in time starts with an X11 setup
    packet with the saved protocol and the fake cookie, however it was cut into
    segments; it then gets all of it with the real cookie in the place of the fake one *)
Theorem C82_display : forall c es o, is_bytes (received es) ->
  (xrun c es = XOpen o <->
   exists es1 es2 before after rest,
     es = es1 ++ es2 /\ in_time c es1 /\ around (x_proto c) (x_fake c) before after /\ zlen (x_fake c) = zlen (x_saved c) /\
     received es1 = before ++ x_fake c ++ after ++ rest /\
     o = before ++ x_saved c ++ after ++ rest ++ received es2).
Proof.
  intros c es o B. split.
  - intros H. destruct (open_inv _ _ _ H) as (es1 & es2 & o1 & -> & T & K & ->). apply bytes_app_received in B. destruct B as (B & _).
    apply helper_ok in K; [|assumption]. destruct K as (before & after & rest & A & L & R & ->).
    exists es1, es2, before, after, rest. splits; auto. rewrite <- !app_assoc. reflexivity.
  - intros (es1 & es2 & before & after & rest & -> & T & A & L & R & ->). apply bytes_app_received in B. destruct B as (B & _).
    unfold xrun. rewrite fold_left_app. fold (xrun c es1). rewrite (xrun_state c es1 B T). unfold state_of.
    assert (K : helper c (received es1) = HOk (before ++ x_saved c ++ after ++ rest)) by (apply helper_ok; [assumption|]; exists before, after, rest; auto).
    rewrite K, open_on, <- !app_assoc. reflexivity.
Qed.
Print Assumptions C82_display.

(** How the stream is cut does not matter *)
Theorem C82_segments : forall c es es', is_bytes (received es) -> in_time c es -> in_time c es' -> received es = received es' -> xrun c es = xrun c es'.
Proof. intros c es es' B T T' R. rewrite (xrun_state c es B T). rewrite R in B |- *. rewrite (xrun_state c es' B T'). reflexivity. Qed.
Print Assumptions C82_segments.

(** A complete setup packet with anything else closes the channel, whatever follows *)
Theorem C82_refused : forall c es proto cookie before after rest, is_bytes (received es) -> in_time c es -> around proto cookie before after ->
  received es = before ++ cookie ++ after ++ rest -> proto <> x_proto c \/ cookie <> x_fake c ->
  forall more, xrun c (es ++ more) = XShut.
Proof.
  intros c es proto cookie before after rest B T A R N more. unfold xrun. rewrite fold_left_app. fold (xrun c es). rewrite (xrun_state c es B T).
  unfold state_of. rewrite R, (helper_around _ _ _ _ _ _ A).
  replace (beqb proto (x_proto c) && beqb cookie (x_fake c) && (zlen (x_fake c) =? zlen (x_saved c))) with false.
  - clear. induction more as [|e more IH]; [reflexivity|exact IH].
  - symmetry. apply andb_false_iff. left. apply andb_false_iff. destruct N as [N|N]; apply beqb_neq in N; auto.
Qed.
Print Assumptions C82_refused.

(** So does a packet whose byte order is neither B nor l, once its 12 fixed bytes are there *)
Theorem C82_order : forall c es x r more, is_bytes (received es) -> in_time c es -> received es = x :: r -> 11 <= zlen r ->
  x <> 66 -> x <> 108 -> xrun c (es ++ more) = XShut.
Proof.
  intros c es x r more B T R L N1 N2. unfold xrun. rewrite fold_left_app. fold (xrun c es). rewrite (xrun_state c es B T).
  unfold state_of, helper. rewrite R, zlen_cons. change (byte (x :: r) 0) with x.
  replace (_ <? 12) with false by (symmetry; apply Z.ltb_ge; lia).
  apply Z.eqb_neq in N1, N2. rewrite N1, N2. clear. induction more as [|e more IH]; [reflexivity|exact IH].
Qed.
Print Assumptions C82_order.

(** After the deadline a channel that still waits is closed, even by the right cookie *)
Theorem C82_deadline : forall c es b t d more, xrun c es = XWait b -> x_deadline c <> 0 -> x_deadline c <= t -> xrun c (es ++ (t, d) :: more) = XShut.
Proof.
  intros c es b t d more H N L. unfold xrun. rewrite fold_left_app. fold (xrun c es). rewrite H. cbn [fold_left xstep]. unfold x11_open_helper. cbn [fst].
  replace (x_deadline c =? 0) with false by (symmetry; apply Z.eqb_neq; assumption).
  replace (x_deadline c <=? t) with true by (symmetry; apply Z.leb_le; assumption). cbn [negb andb].
  clear. induction more as [|e more IH]; [reflexivity|exact IH].
Qed.
Print Assumptions C82_deadline.

(** The first request: the fake cookie is random, as long as the real one, and it is
    what the server is told *)
Theorem C82_first : forall sc q s p h n, fills q -> zlen (r_data q) / 2 <= 65536 ->
  x11_request sc (mkXS None None) q = (s, SSent p h n) ->
  exists v f, s_disp s = Some (r_disp q) /\ s_auth s = Some (r_proto q, v, f) /\ f = r_rnd q (zlen (r_data q) / 2) /\
    zlen v = zlen f /\ zlen f = zlen (r_data q) / 2 /\ p = r_proto q /\ hexes f h.
Proof.
  intros sc q s p h n F L H. unfold x11_request in H. cbn [s_disp s_auth] in H. cbv zeta in H.
  destruct (unhex sc (Z.to_nat (zlen (r_data q) / 2)) (r_data q)) as [v|] eqn:U; [|discriminate].
  pose proof (half_nonneg (r_data q)) as HN. destruct (F _ HN) as (F1 & F2). apply unhex_len in U. rewrite Z2Nat.id in U by lia.
  cbn [snd] in H. destruct (tohex (r_rnd q (zlen (r_data q) / 2)) (zlen (r_data q) / 2)) as [t|] eqn:T; [|discriminate].
  injection H as <- <- <- <-. exists v, (r_rnd q (zlen (r_data q) / 2)). cbn [s_disp s_auth]. splits; auto; [lia|].
  destruct (tohex_spec _ _ _ F2 T) as [(_ & _ & X) | (X & _)]; [|lia].
  replace (ztake (zlen (r_data q) / 2) (r_rnd q (zlen (r_data q) / 2))) with (r_rnd q (zlen (r_data q) / 2)) in X; [exact X|].
  symmetry. rewrite <- F1 at 1. rewrite <- (app_nil_r (r_rnd q (zlen (r_data q) / 2))) at 2. apply ztake_app_exact. reflexivity.
Qed.
Print Assumptions C82_first.

(** In a whole session, one fake cookie as long as the real one serves all requests *)
Theorem C82_session : forall sc qs s os, Forall fills qs -> requests sc (mkXS None None) qs = (s, os) ->
  forall p h n, In (SSent p h n) os ->
  exists proto v f, s_auth s = Some (proto, v, f) /\ zlen v = zlen f /\
    ((exists k, hexes (ztake k f) h) \/ h = bs "tohex: length > 65536").
Proof.
  intros sc qs s os F H p h n J. destruct (requests_good sc qs (mkXS None None) s os I F H) as (G & _ & P).
  destruct (P _ _ _ J) as (((proto, v), f) & k & A & T). unfold good in G. rewrite A in G. destruct G as (L & B).
  exists proto, v, f. splits; auto. cbn [snd] in T. destruct (tohex_spec _ _ _ B T) as [(_ & _ & X) | (_ & X)]; eauto.
Qed.
Print Assumptions C82_session.

(** What was saved stays *)
Theorem C82_kept : forall sc before after s a s' os os', Forall fills (before ++ after) -> requests sc (mkXS None None) before = (s, os) ->
  s_auth s = Some a -> requests sc s after = (s', os') -> s_auth s' = Some a.
Proof.
  intros sc before after s a s' os os' F H A H'. apply Forall_app in F. destruct F as (F1 & F2).
  destruct (requests_good sc before (mkXS None None) s os I F1 H) as (G & _ & _). destruct (requests_good sc after s s' os' G F2 H') as (_ & K & _). auto.
Qed.
Print Assumptions C82_kept.

(** The server learns nothing about the real cookie but its length: two sessions that
    differ only in the digits of the cookies, all of them readable, send the same *)
Theorem C82_secret : forall sc qs rs s s' os os', Forall2 same_but_cookie qs rs ->
  requests sc (mkXS None None) qs = (s, os) -> requests sc (mkXS None None) rs = (s', os') ->
  ~ In SFatal os -> ~ In SFatal os' -> os = os'.
Proof.
  intros sc qs rs s s' os os' Q H H' N N'. apply (requests_like sc qs rs (mkXS None None) (mkXS None None) s s' os os'); auto. split; [reflexivity|exact I].
Qed.
Print Assumptions C82_secret.

(** Only one display is forwarded in a session *)
Theorem C82_one_display : forall sc s q d, s_disp s = Some d -> r_disp q <> d -> x11_request sc s q = (s, SIgnored).
Proof. intros sc s q d D N. unfold x11_request. rewrite D. apply beqb_neq in N. rewrite N. reflexivity. Qed.
Print Assumptions C82_one_display.

(** Refuted: that what is told stays within the fake cookie.  The length used for it is
    that of the cookie of the new request, so that a later session with a longer cookie
    makes the client read, and send, what lies behind the saved fake cookie *)
Theorem C82_length_refuted : forall sc q r v, fills q -> unhex sc (Z.to_nat (zlen (r_data q) / 2)) (r_data q) = Some v ->
  r_disp q = r_disp r -> zlen (r_data q) / 2 < zlen (r_data r) / 2 <= 65536 ->
  exists o s, requests sc (mkXS None None) [q; r] = (s, [o; SOutside]).
Proof.
  intros sc q r v F U D L. pose proof (half_nonneg (r_data q)) as HN. destruct (F _ HN) as (F1 & _).
  cbn [requests]. unfold x11_request. cbn [s_disp s_auth]. cbv zeta. rewrite U. cbn [s_disp s_auth snd]. rewrite <- D, beqb_refl. cbn [negb].
  assert (T : tohex (r_rnd q (zlen (r_data q) / 2)) (zlen (r_data r) / 2) = None).
  { unfold tohex. replace (65536 <? zlen (r_data r) / 2) with false by (symmetry; apply Z.ltb_ge; lia).
    rewrite F1. replace (zlen (r_data q) / 2 <? zlen (r_data r) / 2) with true by (symmetry; apply Z.ltb_lt; lia). reflexivity. }
  rewrite T. do 2 eexists. reflexivity.
Qed.
Print Assumptions C82_length_refuted.

(** ** Examples *)
Definition xc : xcfg := mkXC (bs "MIT") [1; 2; 3; 4; 5] [9; 8; 7; 6; 5] 100.
Definition pk (cookie : list Z) : list Z := [66; 0; 0; 11; 0; 0] ++ [0; 3] ++ [0; 5] ++ [0; 0] ++ bs "MIT" ++ [0] ++ cookie ++ [0; 0; 0].
Example C82_around : around (x_proto xc) (x_fake xc) ([66; 0; 0; 11; 0; 0; 0; 3; 0; 5; 0; 0] ++ bs "MIT" ++ [0]) [0; 0; 0].
Proof.
  exists 66, [0; 0; 11; 0; 0], [0; 0], [0; 3], [0; 5], [0], [0; 0; 0]. splits; try reflexivity.
  - apply (lf_msb _ 0 3); try lia; reflexivity.
  - apply (lf_msb _ 0 5); try lia; reflexivity.
  - split; [reflexivity|exists 1; reflexivity].
  - split; [reflexivity|exists 2; reflexivity].
Qed.
Example C82_runs :
  xrun xc [(1, ztake 7 (pk [1; 2; 3; 4; 5])); (2, zdrop 7 (pk [1; 2; 3; 4; 5]) ++ [77]); (200, [78])] = XOpen (pk [9; 8; 7; 6; 5] ++ [77; 78]) /\
  xrun xc [(1, pk [1; 2; 3; 4; 6])] = XShut /\ xrun xc [(100, pk [1; 2; 3; 4; 5])] = XShut /\ xrun xc [(1, ztake 20 (pk [1; 2; 3; 4; 5]))] = XWait (ztake 20 (pk [1; 2; 3; 4; 5])).
Proof. splits; reflexivity. Qed.
(** sscanf of two digits *)
Definition two (s : list Z) : option Z := match s with a :: b :: _ => match hexval a, hexval b with Some x, Some y => Some (16 * x + y) | _, _ => None end | _ => None end.
Definition rq (data : list Z) : xreq := mkXR (bs ":0.1") (bs "MIT") data (fun n => repeat 171 (Z.to_nat n)).
Example C82_requests :
  requests two (mkXS None None) [rq (bs "0102"); rq (bs "ffff"); mkXR (bs ":1") (bs "MIT") (bs "00") (fun _ => []); rq (bs "010203")] =
    (mkXS (Some (bs ":0.1")) (Some (bs "MIT", [1; 2], [171; 171])), [SSent (bs "MIT") (bs "abab") 1; SSent (bs "MIT") (bs "abab") 1; SIgnored; SOutside]) /\
  fills (rq (bs "0102")) /\ same_but_cookie (rq (bs "0102")) (rq (bs "ffff")).
Proof.
  split; [reflexivity|]. split; [|unfold same_but_cookie; splits; reflexivity].
  intros n N. cbn [rq r_rnd]. split.
  - unfold zlen. rewrite repeat_length. lia.
  - unfold is_bytes. apply Forall_forall. intros x I. apply repeat_spec in I. subst x. unfold is_byte. lia.
Qed.
