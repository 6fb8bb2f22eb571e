(** src/python/analysis/analyze-traces.py lines 104-110: how often each policy is best, and how often a model used it. *)
From Coq Require Import List ZArith Bool Ascii String.
From Verif Require Import Model.Base Model.Decimal Model.ModelStringM Model.CreateDatasetM Model.AnalyzeM Model.WriteOptM Model.AccuracyM.
Import ListNotations.

(** np.histogram with the edges given and zip(bins[:-1], hist), lines 104-106 and 107-110: a bin has its left edge and not its right
    one, but the last has both. *)
Fixpoint histogram (edges : list Z) (xs : list Z) : list (Z * nat) :=
  match edges with
  | a :: tl =>
      match tl with
      | b :: rest =>
          (a, List.length (filter (fun x => (a <=? x)%Z && match rest with [] => (x <=? b)%Z | _ => (x <? b)%Z end) xs)) :: histogram tl xs
      | [] => []
      end
  | [] => []
  end.

(** np.arange(npolicies), lines 105 and 108. *)
Definition arange (n : nat) : list Z := map Z.of_nat (seq 0 n).

(** The column policy of the rows as whole numbers, lines 107-108; a column with other contents, and numbers of more than 32 bits,
    are not modelled. *)
Fixpoint whole_cells (l : list cell) : outcome (list Z) :=
  match l with
  | [] => Ok []
  | Some s :: r =>
      match stoi s with
      | Ok (z, []) => let* zs := whole_cells r in Ok (z :: zs)
      | _ => UB
      end
  | None :: _ => UB
  end.

(** compute_accuracy, lines 81-87 and 104-110 with npolicies of lines 272-284: the two histograms. *)
Definition histograms (data : table) (opt : list opt_row) (rank : Z) (trained : bytes) (nstatic : nat) : outcome (list (Z * nat) * list (Z * nat)) :=
  let cols := columns data in
  if forallb (has_column cols) [$"rankid"; $"training"; $"region"; $"idx"; $"policy"; $"xtime"]
  then
    let mine := filter (fun row => cell_eqb (at_column cols row ($"rankid")) (Some (print_Z rank)) &&
      match at_column cols row ($"training") with Some t => has_text trained t | None => false end) (rows data) in
    let* ps := whole_cells (map (fun row => at_column cols row ($"policy")) mine) in
    Ok (histogram (arange (nstatic + 1)) (map o_policy opt), histogram (arange (nstatic + 1)) ps)
  else Throw.
