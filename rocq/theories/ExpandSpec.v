(** Vocabulary for C84: templates. *)
From Verif Require Import Base.
Local Open Scope Z_scope.

(** The value of the first key that has the character *)
Definition value_of (keys : list (list Z * list Z)) (k : Z) (v : list Z) : Prop :=
  exists pre ks post, keys = pre ++ (ks, v) :: post /\ In k ks /\ forall x, In x pre -> ~ In k (fst x).
(** A template, whether a variable in it has no value, and what it stands for: values
    as they are, a percent sign for two, all else for itself *)
Inductive stands_for (env : list Z -> option (list Z)) (dollar percent : bool) (keys : list (list Z * list Z)) : list Z -> bool -> list Z -> Prop :=
| sf_nil : stands_for env dollar percent keys [] false []
| sf_set : forall name v r m o, dollar = true -> name <> [] -> ~ In 125 name -> env name = Some v -> stands_for env dollar percent keys r m o ->
    stands_for env dollar percent keys ([36; 123] ++ name ++ [125] ++ r) m (v ++ o)
| sf_unset : forall name r m o, dollar = true -> name <> [] -> ~ In 125 name -> env name = None -> stands_for env dollar percent keys r m o ->
    stands_for env dollar percent keys ([36; 123] ++ name ++ [125] ++ r) true o
| sf_percent : forall r m o, percent = true -> stands_for env dollar percent keys r m o -> stands_for env dollar percent keys ([37; 37] ++ r) m ([37] ++ o)
| sf_key : forall k v r m o, percent = true -> k <> 37 -> value_of keys k v -> stands_for env dollar percent keys r m o ->
    stands_for env dollar percent keys ([37; k] ++ r) m (v ++ o)
| sf_other : forall c r m o, (percent = true -> c <> 37) -> (dollar = true -> c = 36 -> forall t, r <> 123 :: t) -> stands_for env dollar percent keys r m o ->
    stands_for env dollar percent keys ([c] ++ r) m ([c] ++ o).
(** Every percent sign doubled *)
Definition doubled (s : list Z) : list Z := flat_map (fun c => if c =? 37 then [37; 37] else [c]) s.
(** No variable begins in it *)
Definition no_variable (s : list Z) : Prop := forall a b, s <> a ++ [36; 123] ++ b.
(** The same keys, whatever their values *)
Definition same_keys (a b : list (list Z * list Z)) : Prop := map fst a = map fst b.
(** Environments that define the same variables *)
Definition same_vars (e f : list Z -> option (list Z)) : Prop := forall n, e n = None <-> f n = None.
