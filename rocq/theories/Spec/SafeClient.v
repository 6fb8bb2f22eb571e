(** Clients of the runtime that keep to the rules of the interface: what they know of the regions and contexts they use
    from the calls they made and the results they got, and which calls they may make next. *)
From Coq Require Import ZArith Bool Ascii String Reals List.
From Flocq Require Import BinarySingleNaN.
From Verif Require Import Model.Base Model.Float Model.Decimal Model.PolicyModelsM Model.ConfigM Model.RuntimeM
  Spec.ModelStringSpec Spec.DecimalSpec Spec.PolicyNetSpec Spec.RuntimeSpec.
Import ListNotations.
Open Scope Z_scope.

(** ** Model strings *)

(** The value of a parameter: absent, or an integer in the range, or a double. *)
Definition int_value (lo hi : Z) (v : option bytes) : Prop :=
  match v with None => True | Some s => exists z, s = print_Z z /\ lo <= z < hi end.
Definition double_value (v : option bytes) : Prop :=
  match v with None => True | Some s => exists x : f64, s = print_float x /\ normal_range x end.

(** Models that need no file. *)
Definition model_names : list bytes :=
  [$"Static"; $"Random"; $"RoundRobin"; $"DecisionTree"; $"RandomForest"; $"PolicyNet"].

(** One of these models with documented parameters, each with a value of its kind, and nothing loaded. *)
Record model_ok (name : bytes) (items : list item) : Prop := {
  mo_name : In name model_names;
  mo_items : Forall item_ok items;
  mo_documented : forall i, In i items -> documented name (fst i);
  mo_load : first_value ($"load") items None;
  mo_load_dataset : first_value ($"load-dataset") items None;
  mo_policy : forall v, first_value ($"policy") items v -> int_value 0 (2 ^ 31) v;
  mo_depth : forall v, first_value ($"max_depth") items v -> int_value 0 (2 ^ 64) v;
  mo_trees : forall v, first_value ($"num_trees") items v -> int_value 0 (2 ^ 64) v;
  mo_explore : forall e, first_value ($"explore") items (Some e) -> In e model_names;
  mo_doubles : forall k v, In k [$"lr"; $"beta"; $"beta1"; $"beta2"; $"threshold"] -> first_value k items v -> double_value v
}.
Definition model_string_ok (s : bytes) : Prop := exists name items, s = model_text name items /\ model_ok name items.

(** The string that selects the model of a new region. *)
Definition model_string (c : config) (info : bytes) : bytes := match info with [] => cf_policy_model c | _ => info end.

(** Regions that may use a network. *)
Definition mentions_net (s : bytes) : Prop := exists a b, s = a ++ $"PolicyNet" ++ b.

(** ** What the client knows *)

(** For each region its number of features and model string, and the context calls without one use; for each open
    context the features given so far. *)
Record view := mkView {
  v_regions : list (Z * bytes);
  v_current : nat -> option ctxptr;
  v_open : ctxptr -> option (list f32)
}.
Definition fresh_view : view := mkView [] (fun _ => None) (fun _ => None).

Definition with_current (r : nat) (p : option ctxptr) (v : view) : view :=
  mkView (v_regions v) (fun i => if Nat.eqb i r then p else v_current v i) (v_open v).
Definition with_open (p : ctxptr) (fs : option (list f32)) (v : view) : view :=
  mkView (v_regions v) (v_current v) (fun q => if ctx_eqb q p then fs else v_open v q).

(** The context a call means. *)
Definition meant (v : view) (r : nat) (p : option ctxptr) : option ctxptr :=
  match p with Some q => Some q | None => v_current v r end.

(** The end of an execution of a region. *)
Definition close (r : nat) (p : option ctxptr) (v : view) : view :=
  with_current r None (match meant v r p with Some q => with_open q None v | None => v end).

(** A call and its result. *)
Definition view_step (c : config) (v : view) (e : op * result) : view :=
  match e with
  | (OpRegion nf _ _ _ info _ _, _) => mkView (v_regions v ++ [(nf, model_string c info)]) (v_current v) (v_open v)
  | (OpBegin r _ _, GotContext p) => with_current r (Some p) (with_open p (Some []) v)
  | (OpBeginFeatures r fs _, GotContext p) => with_current r (Some p) (with_open p (Some fs) v)
  | (OpSetFeature r p x, _) =>
      match meant v r p with
      | Some q => match v_open v q with Some fs => with_open q (Some (fs ++ [x])) v | None => v end
      | None => v
      end
  | (OpEnd r p _ _, _) | (OpEndMetric r p _, _) => close r p v
  | (OpTrain r _ true _, _) | (OpCollect r, _) => with_current r None v
  | (OpTrainAll _ true, _) => mkView (v_regions v) (fun _ => None) (v_open v)
  | _ => v
  end.
Definition view_of (c : config) (h : history) : view := fold_left (view_step c) h fresh_view.

(** ** What the client may do *)

(** The call means an open context of the region, which has these features. *)
Definition open_on (v : view) (r : nat) (p : option ctxptr) (fs : list f32) : Prop :=
  exists q, meant v r p = Some q /\ fst q = r /\ v_open v q = Some fs.

(** As many features as the region has, none a NaN; when they are traced they fit in an int; when the region may use
    a network they fit in an unsigned 64-bit integer. *)
Definition usable (c : config) (v : view) (r : nat) (fs : list f32) : Prop :=
  exists nf s, nth_error (v_regions v) r = Some (nf, s) /\ Z.of_nat (List.length fs) = nf /\
    Forall (fun x => is_nan x = false) fs /\
    (cf_trace_policy c <> 0 \/ cf_trace_best c <> 0 -> Forall (fun x => ~ unprintable x) fs) /\
    (mentions_net s -> Forall encodable fs).

(** A region that may use a network also needs the sampling to return: std::discrete_distribution is undefined when its
    weights are not numbers. *)
Definition sampling_ok (v : view) (r : nat) (D : draws) : Prop :=
  draws_ok D /\
  forall nf s, nth_error (v_regions v) r = Some (nf, s) -> mentions_net s -> forall l, l <> [] -> exists i, d_discrete D l = Ok i.

Definition allowed (c : config) (v : view) (o : op) : Prop :=
  match o with
  | OpRegion nf _ np _ info yaml _ => 0 <= nf /\ 1 <= np <= 1024 /\ yaml = [] /\ model_string_ok (model_string c info)
  | OpBegin r _ _ | OpBeginFeatures r _ _ | OpTrain r _ _ _ | OpCollect r => (r < List.length (v_regions v))%nat
  | OpSetFeature r p _ => exists fs, open_on v r p fs
  | OpGetPolicy r p D => exists fs, open_on v r p fs /\ usable c v r fs /\ sampling_ok v r D
  | OpEnd r p _ _ | OpEndMetric r p _ => exists fs, open_on v r p fs /\ usable c v r fs
  | OpTrainAll _ _ | OpComplete _ _ => True
  | OpDestroy _ _ | OpShutdown _ => False
  end.

(** Every call of the client is allowed by what it knows then. *)
Definition well_behaved (P : platform) (c : config) (files : list (bytes * bytes)) (os : list op) : Prop :=
  forall pre o post w xs, os = pre ++ o :: post -> run P (start_world c files) pre = Ok (w, xs) ->
    allowed c (view_of c (combine pre xs)) o.

(** Settings under which training works: one model per region, trained by each process on its own; no drift detection;
    no data kept between runs. *)
Record plain (c : config) : Prop := {
  pl_collective : cf_collective c = 0;
  pl_single : cf_single_model c = 0;
  pl_region : cf_region_model c <> 0;
  pl_retrain : cf_retrain c = 0;
  pl_persistent : cf_persistent c = 0
}.
