(** What the examples of C09-C13, C56 and C57 use. *)
From Coq Require Import List ZArith Bool Ascii String Reals SpecFloat PeanoNat.
From Flocq Require Import Core BinarySingleNaN.
From Verif Require Import Model.Base Model.Float Model.Decimal Model.ParserM Model.DatasetM Model.DatasetIO
  Spec.TokenSpec Spec.DecimalSpec Spec.DatasetSpec Spec.DatasetClient Spec.DatasetFileSpec
  Proofs.DecimalRead Proofs.LoadFacts Proofs.DatasetFileProps Proofs.DatasetFileDefects Proofs.DatasetFileTheorems.
Import ListNotations.
Open Scope Z_scope.

(** Dataset listing with floats shown as sign, mantissa and exponent. *)
Definition view (d : dataset) : list (list spec_float * Z * spec_float) :=
  map (fun m => (map (fun x : f32 => B2SF x) (m_features m), m_policy m, B2SF (m_metric m))) (ds_to_vector d).

Definition ex_rec (f p m : Z) : meas := ([f32_of_Z f], p, f64_of_Z m).

(** The smallest positive float. *)
Definition tiny32 : f32 := binary_normalize 24 128 prec_gt_0_32 prec_lt_emax_32 mode_NE 1 (-149) false.

Lemma reload_merges_keys : exists d ks d' v a b,
  reachable d ks /\ ds_size d = 2 /\
  recorded [f32_of_Z 1000001] 0 (ds_to_vector d) = Some a /\
  recorded [f32_of_Z 1000002] 0 (ds_to_vector d) = Some b /\
  Beqb a b = false /\
  ds_load [] (ds_store d) = Ok (d', [nl]) /\ ds_size d' = 1 /\
  recorded [f32_of_Z 1000000] 0 (ds_to_vector d') = Some v /\ B2SF v = B2SF (mean2 a b).
Proof.
  set (d := [([f32_of_Z 1000001], 0, f64_of_Z 2); ([f32_of_Z 1000002], 0, f64_of_Z 8)] : dataset).
  assert (E : insert_all [] [ex_rec 1000001 0 2; ex_rec 1000002 0 8] = Ok d) by reflexivity.
  assert (R : exists ks, reachable d ks) by (refine (reachable_insert_all _ _ _ _ reach_empty _ E); repeat constructor).
  destruct R as [ks R].
  exists d, ks. 
  assert (XL : match ds_load [] (ds_store d) with Ok _ => true | _ => false end = true) by (vm_compute; reflexivity).
  destruct (ds_load [] (ds_store d)) as [[d' r]| | | |] eqn:L; try discriminate XL.
  destruct (recorded [f32_of_Z 1000000] 0 (ds_to_vector d')) as [v|] eqn:V.
  2:{ exfalso. assert (X : match ds_load [] (ds_store d) with
        | Ok (d', _) => match recorded [f32_of_Z 1000000] 0 (ds_to_vector d') with Some _ => true | None => false end
        | _ => true end = true) by (vm_compute; reflexivity).
      rewrite L, V in X. discriminate. }
  exists d', v, (f64_of_Z 2), (f64_of_Z 8).
  assert (X : match ds_load [] (ds_store d) with
      | Ok (d', r) => ((ds_size d' =? 1) && bytes_eqb r [nl] &&
          match recorded [f32_of_Z 1000000] 0 (ds_to_vector d') with
          | Some v => Beqb v (mean2 (f64_of_Z 2) (f64_of_Z 8)) | None => false end)%bool
      | _ => true end = true) by (vm_compute; reflexivity).
  assert (Y : match ds_load [] (ds_store d) with
      | Ok (d', r) => match recorded [f32_of_Z 1000000] 0 (ds_to_vector d') with Some v => B2SF v | None => S754_nan end
      | _ => S754_nan end = B2SF (mean2 (f64_of_Z 2) (f64_of_Z 8))) by (vm_compute; reflexivity).
  rewrite L, V in X, Y. apply andb_prop in X as [X1 _]. apply andb_prop in X1 as [X1 X2].
  apply Z.eqb_eq in X1. apply LoadFacts.bytes_eqb_spec in X2. subst r.
  split; [exact R|]. clear R E.
  split; [reflexivity|]. split; [reflexivity|]. split; [reflexivity|].
  split; [vm_compute; reflexivity|]. auto.
Qed.

Lemma subnormal_cannot_reload : exists d ks,
  reachable d ks /\ ds_to_vector d = [([tiny32], 0, f64_of_Z 1)] /\ Bltb zero32 tiny32 = true /\
  ds_load [] (ds_store d) = Throw.
Proof.
  set (d := [([tiny32], 0, f64_of_Z 1)] : dataset).
  assert (E : insert_all [] [([tiny32], 0, f64_of_Z 1)] = Ok d) by reflexivity.
  assert (R : exists ks, reachable d ks) by (refine (reachable_insert_all _ _ _ _ reach_empty _ E); repeat constructor).
  destruct R as [ks R].
  exists d, ks. split; [exact R|]. clear R E.
  split; [reflexivity|]. split; vm_compute; reflexivity.
Qed.
