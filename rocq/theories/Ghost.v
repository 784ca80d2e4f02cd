(* Counting with machine integers: a counter either holds the true value (reduced modulo
   2^64 in a build without overflow checks), or the checked build has panicked and then the
   true value does not fit. *)
From Verif Require Import Base BaseProofs SumFacts.
Local Open Scope N_scope.

(* x is the machine representation of the true value v *)
Definition agr (p : profile) (x v : N) : Prop :=
  match p with Debug => x = v | Release => x = v mod 2 ^ 64 end.

(* m returns a value in P, or the checked build panics on an overflow and then B fails *)
Definition may {A} (p : profile) (B : Prop) (m : outcome A) (P : A -> Prop) : Prop :=
  (exists a, m = Ret a /\ P a) \/ (p = Debug /\ m = Fail Overflow /\ ~ B).

Lemma agr_small p x : x < 2 ^ 64 -> agr p x x.
Proof. intros H. destruct p; cbn; [reflexivity|]. symmetry. apply N.mod_small. exact H. Qed.
Lemma agr_0 p : agr p 0 0. Proof. apply agr_small. reflexivity. Qed.
Lemma agr_1 p : agr p 1 1. Proof. apply agr_small. reflexivity. Qed.
Lemma agr_exact p x v : agr p x v -> v < 2 ^ 64 -> x = v.
Proof. destruct p; cbn; [auto|]. intros -> H. apply N.mod_small. exact H. Qed.
Lemma agr_fun p x y v : agr p x v -> agr p y v -> x = y.
Proof. destruct p; cbn; congruence. Qed.
Lemma agr_bound p x v : agr p x v -> x <= v.
Proof. destruct p; cbn; intros ->; [lia|]. apply N.mod_le. discriminate. Qed.
Lemma agr_mod p x v : agr p x v -> x mod 2 ^ 64 = v mod 2 ^ 64.
Proof. destruct p; cbn [agr]; intros ->; [reflexivity|]. apply N.mod_mod. discriminate. Qed.

Section May.
  Variable p : profile.
  Variable B : Prop.

  Lemma may_ret {A} (a : A) (P : A -> Prop) : P a -> may p B (Ret a) P.
  Proof. intros H. left. exists a. auto. Qed.
  Lemma may_bind {A C} (m : outcome A) (k : A -> outcome C) P Q :
    may p B m P -> (forall a, P a -> may p B (k a) Q) -> may p B (bind m k) Q.
  Proof.
    intros [(a & -> & Ha)|(Hp & -> & HB)] H; [apply H; exact Ha|right; auto].
  Qed.
  Lemma may_weaken {A} (m : outcome A) (P Q : A -> Prop) :
    may p B m P -> (forall a, P a -> Q a) -> may p B m Q.
  Proof. intros [(a & E & Ha)|H] HPQ; [left; exists a; auto|right; exact H]. Qed.
  Lemma may_foldM {A S} (f : S -> A -> outcome S) (I : list A -> S -> Prop) (l : list A) :
    forall done s, I done s ->
    (forall pre x s, In x l -> I pre s -> may p B (f s x) (I (pre ++ [x]))) ->
    may p B (foldM f l s) (I (done ++ l)).
  Proof.
    induction l as [|x l IH]; intros done s Hs Hf.
    - cbn. rewrite app_nil_r. apply may_ret. exact Hs.
    - cbn [foldM]. eapply may_bind; [apply Hf; [left; reflexivity|exact Hs]|].
      intros s' Hs'. replace (done ++ x :: l) with ((done ++ [x]) ++ l) by (rewrite <- app_assoc; reflexivity).
      apply IH; [exact Hs'|]. intros pre y s0 Hy. apply Hf. right. exact Hy.
  Qed.
  Lemma may_add x y v w : agr p x v -> agr p y w -> (B -> v + w < 2 ^ 64) ->
    may p B (add_ 64 p x y) (fun z => agr p z (v + w)).
  Proof.
    intros Hx Hy HB. destruct p; cbn [agr] in *.
    - subst. unfold add_. destruct (N.ltb_spec (v + w) (2 ^ 64)) as [H|H].
      + left. eauto.
      + right. repeat split. intros b. apply HB in b. lia.
    - left. rewrite add_release. eexists. split; [reflexivity|]. subst. symmetry. apply N.add_mod. discriminate.
  Qed.
  Lemma may_mul x y v w : agr p x v -> agr p y w -> (B -> v * w < 2 ^ 64) ->
    may p B (mul_ 64 p x y) (fun z => agr p z (v * w)).
  Proof.
    intros Hx Hy HB. destruct p; cbn [agr] in *.
    - subst. unfold mul_. destruct (N.ltb_spec (v * w) (2 ^ 64)) as [H|H].
      + left. eauto.
      + right. repeat split. intros b. apply HB in b. lia.
    - left. rewrite mul_release. eexists. split; [reflexivity|]. subst. symmetry. apply N.mul_mod. discriminate.
  Qed.
  Lemma may_holds {A} (m : outcome A) P a : may p B m P -> m = Ret a -> P a.
  Proof. intros [(b & E & Hb)|(_ & E & _)] H; rewrite H in E; [|discriminate]. inversion E; subst. exact Hb. Qed.
  Lemma may_total {A} (m : outcome A) P : B -> may p B m P -> exists a, m = Ret a /\ P a.
  Proof. intros b [H|(_ & _ & H)]; [exact H|contradiction]. Qed.
End May.

(* ------------------------------------------------------------------------- *)
(** * Computations whose only effect on the state is to emit entries *)

Section Emits.
  Context {St E : Type}.
  Variable p : profile.
  Variable B : Prop.
  Variable step : St -> E -> outcome St.
  Variable R : E -> Prop.       (* what every emitted entry satisfies *)

  (* m produces x and emits the entries es, for some x and es in P, whatever the state; or
     B fails and the checked build emits some entries and panics on an overflow *)
  Definition emits {X} (m : St -> outcome (X * St)) (P : X -> list E -> Prop) : Prop :=
    (exists x es, P x es /\ Forall R es /\ forall st, m st = (st' <- foldM step es st ;; Ret (x, st'))) \/
    (p = Debug /\ ~ B /\ exists es, Forall R es /\ forall st, m st = (st' <- foldM step es st ;; Fail Overflow)).

  Lemma emits_ret {X} (x : X) (P : X -> list E -> Prop) : P x [] -> emits (fun st => Ret (x, st)) P.
  Proof. intros H. left. exists x, []. auto. Qed.
  Lemma emits_weaken {X} (m : St -> outcome (X * St)) (P Q : X -> list E -> Prop) :
    emits m P -> (forall x es, P x es -> Q x es) -> emits m Q.
  Proof. intros [(x & es & H & E')|H] HPQ; [left; exists x, es; auto|right; exact H]. Qed.
  Lemma emits_ext {X} (m m' : St -> outcome (X * St)) (P : X -> list E -> Prop) :
    (forall st, m st = m' st) -> emits m P -> emits m' P.
  Proof.
    intros He [(x & es & H & HR & E')|(H1 & H2 & es & HR & E')].
    - left. exists x, es. split; [exact H|split; [exact HR|]]. intros st. rewrite <- He. apply E'.
    - right. split; [exact H1|split; [exact H2|]]. exists es. split; [exact HR|]. intros st. rewrite <- He. apply E'.
  Qed.
  Lemma emits_bind {X Y} (m : St -> outcome (X * St)) (k : X -> St -> outcome (Y * St)) P Q :
    emits m P -> (forall x es, P x es -> emits (k x) (fun y es' => Q y (es ++ es'))) ->
    emits (fun st => '(x, st') <- m st ;; k x st') Q.
  Proof.
    intros [(x & es & HP & HR & Em)|(H1 & H2 & es & HR & Em)] Hk.
    - destruct (Hk x es HP) as [(y & es' & HQ & HR' & Ek)|(H1 & H2 & es' & HR' & Ek)].
      + left. exists y, (es ++ es'). split; [exact HQ|]. split; [apply Forall_app; auto|]. intros st. rewrite Em, foldM_app.
        destruct (foldM step es st) as [st'|f]; cbn [bind]; [apply Ek|reflexivity].
      + right. split; [exact H1|split; [exact H2|]]. exists (es ++ es'). split; [apply Forall_app; auto|].
        intros st. rewrite Em, foldM_app. destruct (foldM step es st) as [st'|f]; cbn [bind]; [apply Ek|reflexivity].
    - right. split; [exact H1|split; [exact H2|]]. exists es. split; [exact HR|]. intros st. rewrite Em.
      destruct (foldM step es st) as [st'|f]; reflexivity.
  Qed.
  Lemma emits_pure {X Y} (m : outcome X) (k : X -> St -> outcome (Y * St)) P Q :
    may p B m P -> (forall x, P x -> emits (k x) Q) -> emits (fun st => x <- m ;; k x st) Q.
  Proof.
    intros [(x & -> & HP)|(H1 & -> & H2)] Hk.
    - cbn [bind]. apply Hk. exact HP.
    - right. split; [exact H1|split; [exact H2|]]. exists []. auto.
  Qed.
  Lemma emits_step {X} (e : E) (x : X) (P : X -> list E -> Prop) : R e -> P x [e] ->
    emits (fun st => st' <- step st e ;; Ret (x, st')) P.
  Proof.
    intros He H. left. exists x, [e]. split; [exact H|split; [auto|]]. intros st. cbn [foldM].
    destruct (step st e); reflexivity.
  Qed.
  Lemma emits_total {X} (m : St -> outcome (X * St)) (P : X -> list E -> Prop) : B -> emits m P ->
    exists x es, P x es /\ Forall R es /\ forall st, m st = (st' <- foldM step es st ;; Ret (x, st')).
  Proof. intros b [H|(_ & H & _)]; [exact H|contradiction]. Qed.

  (* the same without a result *)
  Definition emits1 (m : St -> outcome St) (P : list E -> Prop) : Prop :=
    (exists es, P es /\ Forall R es /\ forall st, m st = foldM step es st) \/
    (p = Debug /\ ~ B /\ exists es, Forall R es /\ forall st, m st = (st' <- foldM step es st ;; Fail Overflow)).
  Lemma emits1_nil (P : list E -> Prop) : P [] -> emits1 (fun st => Ret st) P.
  Proof. intros H. left. exists []. auto. Qed.
  Lemma emits1_weaken m (P Q : list E -> Prop) : emits1 m P -> (forall es, P es -> Q es) -> emits1 m Q.
  Proof. intros [(es & H & E')|H] HPQ; [left; exists es; auto|right; exact H]. Qed.
  Lemma emits1_pure {X} (m : outcome X) (k : X -> St -> outcome St) P Q :
    may p B m P -> (forall x, P x -> emits1 (k x) Q) -> emits1 (fun st => x <- m ;; k x st) Q.
  Proof.
    intros [(x & -> & HP)|(H1 & -> & H2)] Hk.
    - cbn [bind]. apply Hk. exact HP.
    - right. split; [exact H1|split; [exact H2|]]. exists []. auto.
  Qed.
  Lemma emits1_step (e : E) (k : St -> outcome St) (P : list E -> Prop) : R e ->
    emits1 k (fun es => P (e :: es)) -> emits1 (fun st => st' <- step st e ;; k st') P.
  Proof.
    intros He [(es & H & HR & E')|(H1 & H2 & es & HR & E')].
    - left. exists (e :: es). split; [exact H|split; [auto|]]. intros st. cbn [foldM]. destruct (step st e); cbn [bind]; [apply E'|reflexivity].
    - right. split; [exact H1|split; [exact H2|]]. exists (e :: es). split; [auto|]. intros st. cbn [foldM].
      destruct (step st e); cbn [bind]; [apply E'|reflexivity].
  Qed.
  Lemma emits1_one (e : E) (P : list E -> Prop) : R e -> P [e] -> emits1 (fun st => step st e) P.
  Proof.
    intros He H. left. exists [e]. split; [exact H|split; [auto|]]. intros st. cbn [foldM]. destruct (step st e); reflexivity.
  Qed.
  Lemma emits1_then {Y} (m : St -> outcome St) (k : St -> outcome (Y * St)) P Q :
    emits1 m P -> (forall es, P es -> emits k (fun y es' => Q y (es ++ es'))) ->
    emits (fun st => st' <- m st ;; k st') Q.
  Proof.
    intros [(es & HP & HR & Em)|(H1 & H2 & es & HR & Em)] Hk.
    - destruct (Hk es HP) as [(y & es' & HQ & HR' & Ek)|(H1 & H2 & es' & HR' & Ek)].
      + left. exists y, (es ++ es'). split; [exact HQ|split; [apply Forall_app; auto|]]. intros st. rewrite Em, foldM_app.
        destruct (foldM step es st) as [st'|f]; cbn [bind]; [apply Ek|reflexivity].
      + right. split; [exact H1|split; [exact H2|]]. exists (es ++ es'). split; [apply Forall_app; auto|].
        intros st. rewrite Em, foldM_app. destruct (foldM step es st) as [st'|f]; cbn [bind]; [apply Ek|reflexivity].
    - right. split; [exact H1|split; [exact H2|]]. exists es. split; [exact HR|]. intros st. rewrite Em.
      destruct (foldM step es st) as [st'|f]; reflexivity.
  Qed.
  Lemma emits1_drop {X} (m : St -> outcome (X * St)) (P : X -> list E -> Prop) (Q : list E -> Prop) :
    emits m P -> (forall x es, P x es -> Q es) -> emits1 (fun st => '(_, st') <- m st ;; Ret st') Q.
  Proof.
    intros [(x & es & HP & HR & Em)|(H1 & H2 & es & HR & Em)] HPQ.
    - left. exists es. split; [eapply HPQ; exact HP|split; [exact HR|]]. intros st. rewrite Em. destruct (foldM step es st); reflexivity.
    - right. split; [exact H1|split; [exact H2|]]. exists es. split; [exact HR|]. intros st. rewrite Em.
      destruct (foldM step es st); reflexivity.
  Qed.
  Lemma emits1_ext (m m' : St -> outcome St) (P : list E -> Prop) :
    (forall st, m st = m' st) -> emits1 m P -> emits1 m' P.
  Proof.
    intros He [(es & H & HR & E')|(H1 & H2 & es & HR & E')].
    - left. exists es. split; [exact H|split; [exact HR|]]. intros st. rewrite <- He. apply E'.
    - right. split; [exact H1|split; [exact H2|]]. exists es. split; [exact HR|]. intros st. rewrite <- He. apply E'.
  Qed.
End Emits.
