(** What penalties and connection limits per source are supposed to be, as
    functions of the history of calls.  Nothing here knows about tables. *)
From Coq Require Import String.
From Verif Require Import Base AddrModel AddrSpec SrclimitModel.
Local Open Scope Z_scope.

(** Configurations sshd accepts: mask lengths in range, sizes not negative. *)
Definition cfg_ok (c : config) : Prop :=
  0 <= c_len4 c <= 32 /\ 0 <= c_len6 c <= 128 /\ 0 <= c_max4 c /\ 0 <= c_max6 c /\
  (c_max_persource c = INT_MAX \/ 0 < c_max_children c).
(** Two addresses are one source if they agree in family, in the configured
    number of leading bits and, for IPv6, in the interface. *)
Definition net_bits (c : config) (a : xaddr) : Z := match x_af a with INET => c_len4 c | INET6 => c_len6 c end.
Definition same_source (c : config) (a b : xaddr) : Prop :=
  x_af a = x_af b /\ leading a (net_bits c a) = leading b (net_bits c b) /\ same_scope a b.
Definition same_sourceb (c : config) (a b : xaddr) : bool :=
  fam_eqb (x_af a) (x_af b) && (leading a (net_bits c a) =? leading b (net_bits c b)) &&
  match x_af a with INET => true | INET6 => x_scope a =? x_scope b end.

(** The seconds charged for each kind of offence. *)
Definition charge (c : config) (type : Z) : Z :=
  if type =? 1 then c_crash c else if type =? 2 then c_authfail c else if type =? 3 then c_grace c
  else if type =? 4 then c_noauth c else c_refuse c.

(** A penalty: when it ends, and whether it is large enough to refuse. *)
Definition live (t : Z) (p : option (Z * bool)) : option (Z * bool) :=
  match p with Some (e, _) => if e <? t then None else p | None => None end.
Definition bump (c : config) (t secs : Z) (p : option (Z * bool)) : option (Z * bool) :=
  match live t p with
  | None => Some (t + secs, secs >? c_min c)
  | Some (e, act) => let e' := Z.min (e + secs) (t + c_max c) in Some (e', act || (e' - t >? c_min c))
  end.
Section Spec.
Variable ntop : xaddr -> option (list Z).
Variable pton : list Z -> option xaddr.
(** Exempt: on the configured list, or without a textual form to compare. *)
Definition exempt (c : config) (a : xaddr) : bool :=
  match c_exempt c, ntop a with
  | None, _ => false
  | Some _, None => true
  | Some l, Some t => addr_match_list pton (Some t) l =? 1
  end.
(** The offences charged to the source of [a], and what they add up to. *)
Definition offence (c : config) (a : xaddr) (k : call) : option (Z * Z) :=
  match k with
  | Penalise b type t => if c_enabled c && negb (exempt c b) && negb (type =? 0) && same_sourceb c a b then Some (t, charge c type) else None
  | _ => None
  end.
Definition owed (c : config) (h : list call) (a : xaddr) : option (Z * bool) :=
  fold_left (fun p k => match offence c a k with Some (t, secs) => bump c t secs p | None => p end) h None.

(** Histories: known offences, well-formed addresses, a clock that does not run
    backwards. *)
Definition call_ok (k : call) : Prop :=
  match k with
  | Penalise a type _ => wf a /\ 0 <= type <= 5
  | CheckPenalty (Some a) _ | CheckAllow (Some a) _ => wf a
  | _ => True
  end.
Definition time_of (k : call) : option Z := match k with Penalise _ _ t | CheckPenalty _ t => Some t | _ => None end.
Fixpoint clock (t : Z) (h : list call) : Prop :=
  match h with
  | [] => True
  | k :: r => match time_of k with Some t' => t <= t' /\ clock t' r | None => clock t r end
  end.
(** [limit] sources of each family can be penalised at once without any being
    forgotten.  With the deny-all policy one less, since at the maximum
    everybody is refused. *)
Definition limit (c : config) (f : family) : Z :=
  match f with
  | INET => if c_over4 c =? DENY_ALL then c_max4 c - 1 else c_max4 c
  | INET6 => if c_over6 c =? DENY_ALL then c_max6 c - 1 else c_max6 c
  end.
Definition few_sources (c : config) (h : list call) (t : Z) : Prop :=
  forall f, exists l, zlen l <= limit c f /\
    forall a, wf a -> x_af a = f -> live t (owed c h a) <> None -> exists b, In b l /\ wf b /\ same_source c a b.
Definition roomy (c : config) (h : list call) : Prop :=
  forall h1 k t h2, h = h1 ++ k :: h2 -> time_of k = Some t -> few_sources c (h1 ++ [k]) t.

(** Refused: enabled, not exempt, and the source owes an active penalty. *)
Definition refused (c : config) (h : list call) (peer : option xaddr) (t : Z) : bool :=
  match peer with
  | None => false
  | Some a => c_enabled c && negb (exempt c a) && match live t (owed c h a) with Some (_, act) => act | None => false end
  end.

(** Connections: the ones being counted, with an identifier and an address. *)
Definition conns_step (c : config) (l : list (Z * xaddr)) (k : call) : list (Z * xaddr) * option bool :=
  match k with
  | CheckAllow peer id =>
    match peer with
    | None => (l, Some true)
    | Some a =>
      if (c_max_persource c =? INT_MAX) || match ntop a with None => true | Some _ => false end then (l, Some true)
      else if (zlen (filter (fun x => same_sourceb c a (snd x)) l) <? c_max_persource c) && (zlen l <? c_max_children c)
      then ((id, a) :: l, Some true) else (l, Some false)
    end
  | Done id => (filter (fun x => negb (fst x =? id)) l, None)
  | _ => (l, None)
  end.
Fixpoint conns (c : config) (l : list (Z * xaddr)) (h : list call) : list (Z * xaddr) * list (option bool) :=
  match h with
  | [] => (l, [])
  | k :: r => let (l1, o) := conns_step c l k in let (l2, os) := conns c l1 r in (l2, o :: os)
  end.
(** An identifier is a descriptor and is not used for two connections at once. *)
Fixpoint fresh_ids (c : config) (l : list (Z * xaddr)) (h : list call) : Prop :=
  match h with
  | [] => True
  | k :: r => match k with CheckAllow _ id => 0 <= id /\ ~ In id (map fst l) | Done id => 0 <= id | _ => True end /\ fresh_ids c (fst (conns_step c l k)) r
  end.
Definition chk (k : call) : bool := match k with CheckAllow _ _ => true | _ => false end.
(** The answers of the connection checks, and nothing for the other calls. *)
Fixpoint allow_answers (h : list call) (os : list (option bool)) : list (option bool) :=
  match h, os with
  | k :: r, o :: os' => (if chk k then o else None) :: allow_answers r os'
  | _, _ => []
  end.
End Spec.

(** Durations are not negative; [capped]: no single charge is above the maximum. *)
Definition durations_ok (c : config) : Prop := 0 <= c_max c /\ forall ty, 0 <= charge c ty.
Definition capped (c : config) : Prop := forall ty, charge c ty <= c_max c.
