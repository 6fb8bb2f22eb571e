(** Model of the loop HOWTO.md lines 66-90 gives as the example of training from the application. The kernel itself is not
    modelled: what runs between two calls only moves the clock. RAJA is not part of the repository; of
    [RAJA::apollo_multi_exec] we take what the text around the example says, that one execution asks for a policy for the
    size of the loop and is measured, as in test/apollo-test.cpp lines 57-72. *)
From Coq Require Import ZArith Bool Ascii String List.
From Verif Require Import Model.Base Model.Float Model.ModelStringM Model.PolicyModelsM Model.RuntimeM.
Import ListNotations.
Open Scope Z_scope.

Section Loop.
(** The clock readings of the begin and end calls and the draws, by iteration; the initial weights. *)
Variable started ended : Z -> Z * Z.
Variable D : Z -> draws.
Variable init : nat -> nat -> f64.

(** One execution of the kernel, HOWTO.md lines 78-82. *)
Definition loop_execution (i : Z) (x : f32) : list op :=
  [OpBegin 0 false (started i); OpSetFeature 0 None x; OpGetPolicy 0 None (D i); OpEnd 0 None (ended i) None].

(** `if(i%100) apollo->train(0);` under the comment "Train every 100 iterations.", HOWTO.md lines 84-86. *)
Definition loop_training (i : Z) : list op :=
  if Z.rem i 100 =? 0 then [] else [OpTrainAll 0 true].

(** `for(int i=1; i<=ITERS; i++)`, HOWTO.md line 76, with the feature of each iteration. *)
Fixpoint loop_from (i : Z) (xs : list f32) : list op :=
  match xs with
  | [] => []
  | x :: rest => loop_execution i x ++ loop_training i ++ loop_from (i + 1) rest
  end.

(** The region of the kernel, created with the model of the environment, then the loop. HOWTO.md lines 66-90. *)
Definition documented_loop (name : bytes) (policies : Z) (xs : list f32) : list op :=
  OpRegion 1 name policies 0 [] [] init :: loop_from 1 xs.
End Loop.
