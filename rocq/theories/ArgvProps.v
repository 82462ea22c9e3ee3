(** Property C51: splitting an assembled command returns the arguments. *)
From Coq Require Import String.
From Verif Require Import Base ArgvModel ArgvSpec ArgvProof.

(** What argv_split does, for every text: it returns the arguments the text
    denotes, or refuses a text that denotes none (an unclosed quote). *)
Theorem C51_split : forall cm s,
  (forall ws, argv_split s cm = SArgs ws <-> line cm s ws) /\
  ((forall ws, ~ line cm s ws) <-> argv_split s cm = SBadFormat).
Proof.
  intros cm s. unfold argv_split.
  assert (A : forall ws, split_loop (S (length s)) s cm [] = SArgs ws <-> line cm s ws).
  { intros ws. split.
    - intros H. apply split_inv in H. destruct H as (w & -> & H). exact H.
    - intros H. rewrite (split_line _ _ _ H) by lia. reflexivity. }
  split; [assumption|]. pose proof (split_loop_fuel (S (length s)) s cm [] ltac:(lia)) as F. split.
  - intros H. destruct (split_loop (S (length s)) s cm []) as [ws| |]; [exfalso; apply (H ws), A; reflexivity|reflexivity|congruence].
  - intros E ws H. apply A in H. congruence.
Qed.
Print Assumptions C51_split.

(** Splitting the assembled form of any vector returns its non-empty arguments in
    order, up to a '#' argument when comments are recognised. *)
Theorem C51_assembled : forall cm argv, argv_split (argv_assemble argv) cm = SArgs (survivors cm argv).
Proof. intros cm argv. apply C51_split. apply asm_line. Qed.
Print Assumptions C51_assembled.

(** Hence the round trip, for vectors without empty arguments; when comments are
    recognised an argument that needs no quotes must not start with '#'. *)
Theorem C51_roundtrip : forall cm argv, Forall (fun a => a <> []) argv ->
  (cm = true -> Forall (fun a => match a with c :: _ => c = 35 -> existsb blank a = true | [] => True end) argv) ->
  argv_split (argv_assemble argv) cm = SArgs argv.
Proof.
  intros cm argv H1 H2. rewrite C51_assembled. f_equal. induction argv as [|a argv IH]; [reflexivity|]. cbn [survivors].
  inversion H1; subst. replace (cm && looks_comment a) with false.
  - destruct a; [congruence|]. f_equal. apply IH; [assumption|]. intros Hc. specialize (H2 Hc). now inversion H2.
  - symmetry. destruct cm; [|reflexivity]. specialize (H2 eq_refl). inversion H2 as [|? ? Ha _]; subst. destruct a as [|c a]; [congruence|].
    cbn [andb looks_comment]. destruct (c =? 35) eqn:E; [|reflexivity]. rewrite Ha by lia. reflexivity.
Qed.
Print Assumptions C51_roundtrip.

(** Empty arguments are lost, so the unrestricted round trip is false. *)
Theorem C51_empty_argument_refuted : exists argv, argv_split (argv_assemble argv) false <> SArgs argv.
Proof. exists [bs "a"; []; bs "b"]. vm_compute. discriminate. Qed.
Print Assumptions C51_empty_argument_refuted.
(** An argument '#x' is taken for a comment when comments are recognised. *)
Theorem C51_comment_refuted : exists argv, Forall (fun a => a <> []) argv /\ argv_split (argv_assemble argv) true <> SArgs argv.
Proof. exists [bs "a"; bs "#x"]. split; [repeat constructor; discriminate|]. vm_compute. discriminate. Qed.
Print Assumptions C51_comment_refuted.

Example C51_demo : argv_assemble [bs "a b"; [92; 34]; bs "c'd"] = bs """a b"" \\\"" c\'d" /\
  argv_split (bs "x 'a ""b' ""c""d\ e #f") false = SArgs [bs "x"; bs "a ""b"; bs "cd e"; bs "#f"] /\
  argv_split (bs "x #y") true = SArgs [bs "x"] /\ argv_split (bs "x 'y") true = SBadFormat.
Proof. splits; vm_compute; reflexivity. Qed.
