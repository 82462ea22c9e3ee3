(** Proofs for C82: requests. *)
From Coq Require Import String.
From Verif Require Import Base Text MiscNumModel MiscNumSpec XcookieModel XcookieSpec XcookieProof.
Local Open Scope Z_scope.

Definition good (s : xst) : Prop := match s_auth s with None => True | Some (_, v, f) => zlen v = zlen f /\ is_bytes f end.
Lemma request_good : forall sc s q s' o, good s -> fills q -> x11_request sc s q = (s', o) ->
  good s' /\ (forall a, s_auth s = Some a -> s_auth s' = Some a) /\
  (forall p h n, o = SSent p h n -> p = r_proto q /\ n = screen_of (r_disp q) /\ exists a, s_auth s' = Some a /\ tohex (snd a) (zlen (r_data q) / 2) = Some h).
Proof.
  intros sc s q s' o G F H. unfold x11_request in H. cbv zeta in H.
  destruct (match s_disp s with Some d => negb (beqb (r_disp q) d) | None => false end).
  - injection H as <- <-. splits; auto. intros p h n N. discriminate N.
  - destruct (s_auth s) as [a|] eqn:E.
    + injection H as <- <-. cbn [s_auth]. splits.
      * unfold good in *. rewrite E in G. exact G.
      * intros b N. exact N.
      * intros p h n N. destruct (tohex (snd a) (zlen (r_data q) / 2)) eqn:T; [|discriminate]. injection N as <- <- <-. splits; auto. exists a. auto.
    + pose proof (half_nonneg (r_data q)) as HN. destruct (unhex sc (Z.to_nat (zlen (r_data q) / 2)) (r_data q)) as [v|] eqn:U.
      * injection H as <- <-. destruct (F _ HN) as (F1 & F2). apply unhex_len in U. cbn [s_auth snd]. splits.
        -- unfold good. cbn [s_auth]. split; [|assumption]. rewrite F1, U, Z2Nat.id by lia. reflexivity.
        -- intros b N. discriminate N.
        -- intros p h n N. destruct (tohex (r_rnd q (zlen (r_data q) / 2)) (zlen (r_data q) / 2)) eqn:T; [|discriminate]. injection N as <- <- <-. splits; auto. eexists. split; [reflexivity|exact T].
      * injection H as <- <-. splits; try (intros; discriminate). unfold good. cbn [s_auth]. exact I.
Qed.
Lemma requests_good : forall sc qs s s' os, good s -> Forall fills qs -> requests sc s qs = (s', os) ->
  good s' /\ (forall a, s_auth s = Some a -> s_auth s' = Some a) /\
  (forall p h n, In (SSent p h n) os -> exists a k, s_auth s' = Some a /\ tohex (snd a) k = Some h).
Proof.
  intros sc qs. induction qs as [|q qs IH]; intros s s' os G F H; cbn [requests] in H.
  - injection H as <- <-. splits; auto. intros p h n [].
  - destruct (x11_request sc s q) as (s1, o) eqn:E1. destruct (requests sc s1 qs) as (s2, os2) eqn:E2. injection H as <- <-.
    inversion F as [|? ? F1 F2]; subst. destruct (request_good _ _ _ _ _ G F1 E1) as (G1 & K1 & P1).
    destruct (IH _ _ _ G1 F2 E2) as (G2 & K2 & P2). splits; auto.
    intros p h n [I|I]; [|eapply P2; exact I]. destruct (P1 _ _ _ I) as (_ & _ & a & A & T). exists a, (zlen (r_data q) / 2). auto.
Qed.

(** ** The real cookie does not matter *)
Definition like (a b : xst) : Prop :=
  s_disp a = s_disp b /\
  match s_auth a, s_auth b with
  | None, None => True
  | Some (p, v, f), Some (p', v', f') => p = p' /\ f = f'
  | _, _ => False
  end.
Lemma request_like : forall sc a b q r a' b' o o', like a b -> same_but_cookie q r -> x11_request sc a q = (a', o) -> x11_request sc b r = (b', o') ->
  o <> SFatal -> o' <> SFatal -> o = o' /\ like a' b'.
Proof.
  intros sc a b q r a' b' o o' (D & A) (Q1 & Q2 & Q3 & Q4) H H' N N'. unfold x11_request in *. cbv zeta in *.
  rewrite <- Q1, <- Q2, <- Q3, <- Q4, <- D in H'.
  destruct (match s_disp a with Some d => negb (beqb (r_disp q) d) | None => false end).
  - injection H as <- <-. injection H' as <- <-. split; [reflexivity|]. split; assumption.
  - destruct (s_auth a) as [((p, v), f)|] eqn:E, (s_auth b) as [((p', v'), f')|] eqn:E'; try contradiction.
    + destruct A as (-> & ->). injection H as <- <-. injection H' as <- <-. cbn [snd]. split; [reflexivity|]. split; cbn [s_disp s_auth]; auto.
    + destruct (unhex sc (Z.to_nat (zlen (r_data q) / 2)) (r_data q)) as [v|]; [|injection H as <- <-; congruence].
      destruct (unhex sc (Z.to_nat (zlen (r_data q) / 2)) (r_data r)) as [v'|]; [|injection H' as <- <-; congruence].
      injection H as <- <-. injection H' as <- <-. cbn [snd]. split; [reflexivity|]. split; cbn [s_disp s_auth]; auto.
Qed.
Lemma requests_like : forall sc qs rs a b a' b' os os', Forall2 same_but_cookie qs rs -> like a b ->
  requests sc a qs = (a', os) -> requests sc b rs = (b', os') -> ~ In SFatal os -> ~ In SFatal os' -> os = os' /\ like a' b'.
Proof.
  intros sc qs rs a b a' b' os os' F. revert a b a' b' os os'. induction F as [|q r qs rs Q F IH]; intros a b a' b' os os' L H H' N N'; cbn [requests] in *.
  - injection H as <- <-. injection H' as <- <-. auto.
  - destruct (x11_request sc a q) as (a1, o) eqn:E1. destruct (requests sc a1 qs) as (a2, os2) eqn:E2. injection H as <- <-.
    destruct (x11_request sc b r) as (b1, o') eqn:E3. destruct (requests sc b1 rs) as (b2, os3) eqn:E4. injection H' as <- <-.
    cbn [In] in N, N'. destruct (request_like _ _ _ _ _ _ _ _ _ L Q E1 E3) as (-> & L1); [intros X; apply N; auto|intros X; apply N'; auto|].
    destruct (IH _ _ _ _ _ _ L1 E2 E4) as (-> & L2); [intros X; apply N; auto|intros X; apply N'; auto|]. auto.
Qed.
