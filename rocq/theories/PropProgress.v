(* Properties of the progress reported by an exact run. *)
From Coq Require Import Sorted.
From Verif Require Import Base Float64 Hand Range Combined Sim SpecEquity SpecResults SpecRun ProgressProofs PropExact.
Local Open Scope N_scope.

(* C48: the reported percentages never decrease, never exceed 100, and end with 100 *)
Theorem C48_progress : forall p ranges board dead threads cancelled sched o, usable ranges ->
  exact_equity p ranges board dead threads cancelled sched = Ret (ROk o) ->
  StronglySorted N.le (o_progress o) /\ Forall (fun x => x <= 100) (o_progress o) /\
  (cancelled = false -> ~ In Cancel sched -> (0 < threads)%nat -> last (o_progress o) 0 = 100).
Proof. exact run_progress. Qed.

Definition progress_of (x : outcome (result observed sim_error)) : list N := match x with Ret (ROk o) => o_progress o | _ => [] end.
Example C48_example :
  progress_of (exact_equity Debug ex_ranges ex_board ex_dead 2 false ex_schedule) = [100; 100] /\
  map (fun e => exact_progress e 7) [0; 1; 2; 3; 4; 5; 6; 7] = [0; 14; 28; 42; 57; 71; 85; 100].
Proof. split; vm_compute; reflexivity. Qed.

Print Assumptions C48_progress.
