(** What HOWTO.md lines 97-163 promise of each model string: the model created, its parameters and their defaults. *)
From Coq Require Import ZArith Bool Ascii String Reals List.
From Flocq Require Import Core BinarySingleNaN.
From Verif Require Import Model.Base Model.Float Model.TreeM Model.ForestM Model.NetM Model.PolicyNetM Model.PolicyModelsM Spec.ModelStringSpec.
Import ListNotations.
Open Scope Z_scope.

(** Decimal numerals and their value. *)
Definition numeral (s : bytes) : Prop := s <> [] /\ Forall (fun c => (48 <= N_of_ascii c <= 57)%N) s.
Definition numeral_value (s : bytes) : Z := fold_left (fun v c => 10 * v + (Z.of_N (N_of_ascii c) - 48)) s 0.

(** `#` and `#.#`: the number a text stands for. *)
Inductive decimal_text : bytes -> R -> Prop :=
| dec_whole a : numeral a -> decimal_text a (IZR (numeral_value a))
| dec_point a b : numeral a -> numeral b ->
    decimal_text (a ++ $"." ++ b) (IZR (numeral_value (a ++ b)) / IZR (10 ^ Z.of_nat (List.length b))).

(** `policy=<#>` *)
Definition int_setting (key : bytes) (default : Z) (items : list item) (z : Z) : Prop :=
  (first_value key items None /\ z = default) \/
  (exists s, first_value key items (Some s) /\ numeral s /\ numeral_value s < 2 ^ 31 /\ z = numeral_value s).

(** `max_depth=<#>`, `num_trees=<#>`: an unsigned, so that larger numbers and negative ones wrap around. *)
Definition count_setting (key : bytes) (default : Z) (items : list item) (z : Z) : Prop :=
  (first_value key items None /\ z = default) \/
  (exists s, first_value key items (Some s) /\ numeral s /\ numeral_value s < 2 ^ 64 /\ z = numeral_value s mod 2 ^ 32) \/
  (exists s, first_value key items (Some ($"-" ++ s)) /\ numeral s /\ numeral_value s < 2 ^ 64 /\ z = (- numeral_value s) mod 2 ^ 32).

(** `lr=<#.#>`: the double nearest to the number. *)
Definition nearest (x : R) (y : f64) : Prop :=
  is_finite y = true /\ Bsign y = false /\ B2R y = round radix2 (FLT_exp (-1074) 53) ZnearestE x.
Definition in_range (x : R) : Prop := x = 0%R \/ (bpow radix2 (-1022) <= x <= bpow radix2 1023)%R.
Definition real_setting (key : bytes) (default : R) (items : list item) (y : f64) : Prop :=
  (first_value key items None /\ nearest default y) \/
  (exists s x, first_value key items (Some s) /\ decimal_text s x /\ in_range x /\ nearest x y).

(** The parameters are absent or numbers. *)
Definition int_given (key : bytes) (items : list item) : Prop := exists z, int_setting key 0 items z.
Definition count_given (key : bytes) (items : list item) : Prop := exists z, count_setting key 0 items z.
Definition real_given (key : bytes) (items : list item) : Prop := exists y, real_setting key 0 items y.

(** `explore=(RoundRobin|Random)`, by default RoundRobin, which starts with policy 0. *)
Definition explorer_setting (policies : Z) (items : list item) (e : model) : Prop :=
  ((first_value ($"explore") items None \/ first_value ($"explore") items (Some ($"RoundRobin"))) /\ e = MRoundRobin policies (-1)) \/
  (first_value ($"explore") items (Some ($"Random")) /\ e = MRandom policies).
Definition explorer_given (items : list item) : Prop :=
  first_value ($"explore") items None \/ first_value ($"explore") items (Some ($"RoundRobin")) \/ first_value ($"explore") items (Some ($"Random")).

(** The model of a region with these policies and features. *)
Inductive promised (features policies : Z) (items : list item) : bytes -> model -> Prop :=
| promised_static p : int_setting ($"policy") 0 items p -> promised features policies items ($"Static") (MStatic policies (if p <? policies then p else 0))
| promised_robin : promised features policies items ($"RoundRobin") (MRoundRobin policies (-1))
| promised_random : promised features policies items ($"Random") (MRandom policies)
| promised_tree t e : count_setting ($"max_depth") 2 items (t_max_depth t) -> t_root t = Null -> t_classes t = [] -> t_data t = [] ->
    explorer_setting policies items e -> promised features policies items ($"DecisionTree") (MTree policies true t (Some e))
| promised_forest f e : count_setting ($"max_depth") 2 items (f_max_depth f) -> count_setting ($"num_trees") 10 items (f_num_trees f) ->
    f_trees f = [] -> f_num_classes f = policies -> explorer_setting policies items e ->
    promised features policies items ($"RandomForest") (MForest policies true f (Some e))
| promised_net n : real_setting ($"lr") (1 / 100) items (learn_rate (pn_net n)) -> real_setting ($"beta") (5 / 10) items (pn_beta n) ->
    real_setting ($"beta1") (5 / 10) items (net_beta1 (pn_net n)) -> real_setting ($"beta2") (9 / 10) items (net_beta2 (pn_net n)) ->
    real_setting ($"threshold") 0 items (pn_threshold n) -> pn_policies n = Z.to_nat policies -> pn_cache n = [] ->
    l_in (layer1 (pn_net n)) = Nat.mul 64 (Z.to_nat features) -> pn_trainable n = true ->
    promised features policies items ($"PolicyNet") (MNet n).

(** A model string with documented parameters, each with a value of its kind, and nothing loaded. *)
Record usable_string (name : bytes) (items : list item) : Prop := {
  us_name : In name [$"Static"; $"RoundRobin"; $"Random"; $"DecisionTree"; $"RandomForest"; $"PolicyNet"];
  us_items : Forall item_ok items;
  us_documented : forall i, In i items -> documented name (fst i);
  us_load : first_value ($"load") items None;
  us_load_dataset : first_value ($"load-dataset") items None;
  us_policy : int_given ($"policy") items;
  us_depth : count_given ($"max_depth") items;
  us_trees : count_given ($"num_trees") items;
  us_explore : explorer_given items;
  us_reals : forall k, In k [$"lr"; $"beta"; $"beta1"; $"beta2"; $"threshold"] -> real_given k items
}.

(** The parameters that are numbers, and texts that are none: empty, or beginning with a character that begins no number. *)
Definition number_parameters : list (bytes * bytes) :=
  [($"Static", $"policy"); ($"DecisionTree", $"max_depth"); ($"RandomForest", $"max_depth"); ($"RandomForest", $"num_trees");
   ($"PolicyNet", $"lr"); ($"PolicyNet", $"beta"); ($"PolicyNet", $"beta1"); ($"PolicyNet", $"beta2"); ($"PolicyNet", $"threshold")].
Definition no_number (s : bytes) : Prop :=
  match s with [] => True | c :: _ => (33 <= N_of_ascii c)%N /\ ~ In c ($"0123456789+-.iInN") end.
