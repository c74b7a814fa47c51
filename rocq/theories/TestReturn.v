(** A checker for executed return statements, for the examples beside the theorems. *)
From Coq Require Import ZArith List String Bool Lia.
From Verif Require Import CInt Tree State Eval StepsFacts SpecRun SpecControl SpecStmt RunFacts RunRules ExprFacts
  ControlFacts StmtFacts TestEnv TestRun.
Import ListNotations.
Local Open Scope string_scope.
Local Open Scope Z_scope.

Lemma outcome_is_at m s t r : outcome_at m s t = r -> r <> Fuel -> runs env0 s t r.
Proof. intros H Hr. eapply runs_intro; eauto. Qed.
Lemma outcome_is s t r : outcome s t = r -> r <> Fuel -> runs env0 s t r.
Proof. exact (outcome_is_at 60 s t r). Qed.
Lemma outcome_body_is_at m s t r : outcome_body_at m s t = r -> r <> Fuel -> runs_body env0 s t r.
Proof. intros H Hr. split; auto. exists m. exact H. Qed.
Lemma outcome_body_is s t r : outcome_body s t = r -> r <> Fuel -> runs_body env0 s t r.
Proof. exact (outcome_body_is_at 60 s t r). Qed.

Section Check.
(** How the outcomes are computed is irrelevant. *)
Variable out : state -> tree -> res tree.
Variable outb : state -> tree -> res unit.
Hypothesis out_is : forall s t r, out s t = r -> r <> Fuel -> runs env0 s t r.
Hypothesis outb_is : forall s t r, outb s t = r -> r <> Fuel -> runs_body env0 s t r.

Definition int_value_c (s : state) (c : tree) : option (Z * state) :=
  match out s c with
  | Ok v s1 => match as_integer env0 v s1 with Ok z s2 => Some (z, s2) | _ => None end
  | _ => None
  end.
Definition loop_cond_c (s : state) (c : tree) : option (Z * state) :=
  match out s c with Ok v s1 => int_value_c s1 v | _ => None end.
Definition broke_c (s : state) : bool := match stack s with [] => false | c :: _ => c_break c end.

Fixpoint items_c (rin : state -> tree -> option (Z * tree * state)) (s : state) (l : list tree) :=
  match l with
  | [] => None
  | T_RETURN lb e :: _ =>
      match out s (T_RETURN lb e) with
      | Ok _ s2 => match activation (stack s2) with
                   | Some i => Some (i, returned s2 lb e, set_stack (give (returned s2 lb e)) s2)
                   | None => None
                   end
      | _ => None
      end
  | i :: l => match rin s i with
              | Some r => Some r
              | None => match out s i with
                        | Ok v s1 => if ends_list v then None else items_c rin s1 l
                        | _ => None
                        end
              end
  end.

Fixpoint returns_c (n : nat) (s : state) (t : tree) : option (Z * tree * state) :=
  match n with
  | O => None
  | S n => match t with CHAIN_HEAD l => items_c (returns_in_c n) s l | _ => None end
  end
with returns_in_c (n : nat) (s : state) (t : tree) : option (Z * tree * state) :=
  match n with
  | O => None
  | S n =>
      match t with
      | T_IF c a b =>
          match int_value_c s c with
          | Some (z, s1) => returns_c n (open_scope env0 "If statement" s1) (if truthy z then a else b)
          | None => None
          end
      | T_LOOP_WHILE c b =>
          match loop_cond_c s c with
          | Some (z, s1) =>
              if truthy z then
                match returns_c n (open_scope env0 "While Loop" s1) b with
                | Some r => Some r
                | None => match outb (open_scope env0 "While Loop" s1) b with
                          | Ok _ s2 => if broke_c s2 then None else
                                       match close_scope tt s2 with
                                       | Ok _ s3 => returns_in_c n s3 (T_LOOP_WHILE c b)
                                       | _ => None
                                       end
                          | _ => None
                          end
                end
              else None
          | None => None
          end
      | _ => None
      end
  end.

Lemma int_value_c_ok s c z s1 : int_value_c s c = Some (z, s1) -> int_value env0 s c (Ok z s1).
Proof.
  unfold int_value_c. destruct (out s c) as [v s'| | | | | | | |] eqn:Ho; try discriminate.
  destruct (as_integer env0 v s') eqn:Ha; try discriminate. intros H. injection H as <- <-.
  left. exists v, s'. split; [apply out_is; [exact Ho|discriminate]|]. congruence.
Qed.
Lemma loop_cond_c_ok s c z s1 : loop_cond_c s c = Some (z, s1) -> loop_cond env0 s c (Ok z s1).
Proof.
  unfold loop_cond_c. destruct (out s c) as [v s'| | | | | | | |] eqn:Ho; try discriminate.
  intros H. left. exists v, s'. split; [apply out_is; [exact Ho|discriminate]|]. apply int_value_c_ok, H.
Qed.

Lemma return_same s l e v s2 : runs env0 s (T_RETURN l e) (Ok v s2) -> v = T_RETURN l e.
Proof.
  intros H. apply return_spec in H as [(w & s1 & _ & H)|(o & _ & H)]; [congruence|destruct o; contradiction].
Qed.

Lemma items_c_ok rin s l i v s' :
  (forall s t i v s', rin s t = Some (i, v, s') -> returns_in env0 s t i v s') ->
  items_c rin s l = Some (i, v, s') -> returns env0 s (CHAIN_HEAD l) i v s'.
Proof.
  intros Hin H.
  assert (Hgen : forall l s pre s00, items env0 pre s00 s -> items_c rin s l = Some (i, v, s') ->
            returns env0 s00 (CHAIN_HEAD (pre ++ l)%list) i v s').
  2:{ apply (Hgen l s [] s); [constructor|exact H]. }
  clear H l. induction l as [|t l0 IH]; intros s1 pre s00 Hp H; [discriminate|].
  assert (Hother : match rin s1 t with
              | Some r => Some r
              | None => match out s1 t with
                        | Ok v s1 => if ends_list v then None else items_c rin s1 l0
                        | _ => None
                        end
              end = Some (i, v, s') -> returns env0 s00 (CHAIN_HEAD (pre ++ t :: l0)%list) i v s').
  { clear H. intros H. destruct (rin s1 t) as [[[i' v'] s'']|] eqn:Hr.
    - injection H as -> -> ->. eapply ret_nested; [exact Hp|]. apply Hin, Hr.
    - destruct (out s1 t) as [w s2| | | | | | | |] eqn:Ho; try discriminate.
      destruct (ends_list w) eqn:Hw; [discriminate|].
      change (t :: l0) with (([t] ++ l0)%list). rewrite app_assoc. apply (IH s2); [|exact H].
      clear - Hp Ho Hw out_is. induction Hp; cbn [app].
      + econstructor; [apply out_is; [exact Ho|discriminate]|exact Hw|constructor].
      + econstructor; eauto. }
  destruct t; try (apply Hother; exact H). clear Hother.
  cbn [items_c] in H. destruct (out s1 (T_RETURN l t)) as [w s2| | | | | | | |] eqn:Ho; try discriminate.
  destruct (activation (stack s2)) as [i'|] eqn:Ha; [|discriminate]. injection H as -> <- <-.
  assert (Hrun : runs env0 s1 (T_RETURN l t) (Ok w s2)) by (apply out_is; [exact Ho|discriminate]).
  pose proof (return_same _ _ _ _ _ Hrun) as ->. eapply ret_here; eauto.
Qed.

Lemma returns_c_ok n : 
  (forall s t i v s', returns_c n s t = Some (i, v, s') -> returns env0 s t i v s') /\
  (forall s t i v s', returns_in_c n s t = Some (i, v, s') -> returns_in env0 s t i v s').
Proof.
  induction n as [|n [IH1 IH2]]; [split; discriminate|]. split.
  - intros s t i v s' H. cbn [returns_c] in H. destruct t; try discriminate.
    eapply items_c_ok; [exact IH2|exact H].
  - intros s t i v s' H. cbn [returns_in_c] in H. destruct t; try discriminate.
    + destruct (int_value_c s t1) as [[z s1]|] eqn:Hc; [|discriminate]. apply int_value_c_ok in Hc.
      eapply ret_if; [exact Hc| |apply IH1; exact H].
      destruct (truthy z) eqn:Hz; [left; split; auto; apply truthy_holds, Hz|right; split; auto; apply truthy_not_holds, Hz].
    + destruct (loop_cond_c s t1) as [[z s1]|] eqn:Hc; [|discriminate]. apply loop_cond_c_ok in Hc.
      destruct (truthy z) eqn:Hz; [|discriminate]. apply truthy_holds in Hz.
      destruct (returns_c n (open_scope env0 "While Loop" s1) t2) as [[[i' v'] s'']|] eqn:Hr.
      * injection H as -> -> ->. eapply ret_while_now; eauto.
      * destruct (outb (open_scope env0 "While Loop" s1) t2) as [u s2| | | | | | | |] eqn:Ho; try discriminate.
        destruct (broke_c s2) eqn:Hb; [discriminate|].
        destruct (close_scope tt s2) as [u' s3| | | | | | | |] eqn:Hs; try discriminate. destruct u, u'.
        eapply ret_while_later; eauto.
        { apply outb_is; [exact Ho|discriminate]. }
        { intros (c & cs & H1 & H2). unfold broke_c in Hb. rewrite H1 in Hb. congruence. }
Qed.

(** Entering a function, by computation. *)
Fixpoint params_c (ds xs : list tree) (s : state) : option state :=
  match ds, xs with
  | [], [] => Some s
  | d :: ds, x :: xs =>
      match out s x with
      | Ok v s1 =>
          match out s1 d with
          | Ok p s2 =>
              let s2' := after_tick env0 s2 in
              match out (set_fresh (fun n => n + 1) s2') (T_ASSIGN (fresh s2') p v) with
              | Ok _ s3 => params_c ds xs s3
              | _ => None
              end
          | _ => None
          end
      | _ => None
      end
  | _, _ => None
  end.
Lemma params_c_ok ds : forall xs s s', params_c ds xs s = Some s' -> params_bound env0 ds xs s s'.
Proof.
  induction ds as [|d ds IH]; intros [|x xs] s s' H; try discriminate; cbn [params_c] in H.
  - injection H as ->. constructor.
  - destruct (out s x) as [v s1| | | | | | | |] eqn:H1; try discriminate.
    destruct (out s1 d) as [p s2| | | | | | | |] eqn:H2; try discriminate.
    destruct (out (set_fresh (fun n => n + 1) (after_tick env0 s2)) (T_ASSIGN (fresh (after_tick env0 s2)) p v))
      as [w s3| | | | | | | |] eqn:H3; try discriminate.
    econstructor; [apply out_is; [exact H1|discriminate]|apply out_is; [exact H2|discriminate]
                  |apply out_is; [exact H3|discriminate]|]. auto.
Qed.
End Check.

(** A return statement is executed; observations on it by computation. *)
Definition returned_value (s : state) (t : tree) : option (Z * tree) :=
  match returns_c outcome outcome_body 20 s t with Some (i, v, _) => Some (i, v) | None => None end.
Definition returned_state (s : state) (t : tree) : state :=
  match returns_c outcome outcome_body 20 s t with Some (_, _, s') => s' | None => s0 end.
Lemma returned_value_at n s t i v :
  match returns_c outcome outcome_body n s t with Some (i, v, _) => Some (i, v) | None => None end = Some (i, v) ->
  returns env0 s t i v (match returns_c outcome outcome_body n s t with Some (_, _, s') => s' | None => s0 end).
Proof.
  intros H. destruct (returns_c outcome outcome_body n s t) as [[[i' v'] s']|] eqn:Hr; [|discriminate]. injection H as -> ->.
  apply (returns_c_ok outcome outcome_body outcome_is outcome_body_is n), Hr.
Qed.
Lemma returned_value_ok s t i v : returned_value s t = Some (i, v) -> returns env0 s t i v (returned_state s t).
Proof. exact (returned_value_at 20 s t i v). Qed.

Definition entered_c (name : string) (params args : tree) (s : state) : option state :=
  match params with
  | NULL => Some (open_activation env0 name s)
  | _ => params_c outcome (chain_elems params) (chain_elems args) (open_activation env0 name s)
  end.
Definition entered_state (name : string) (params args : tree) (s : state) : state :=
  match entered_c name params args s with Some s' => s' | None => s0 end.
Lemma entered_c_ok name params args s :
  match entered_c name params args s with Some _ => true | None => false end = true ->
  entered env0 name params args s (entered_state name params args s).
Proof.
  unfold entered_state. destruct (entered_c name params args s) as [s'|] eqn:H; [|discriminate]. intros _.
  unfold entered_c in H. destruct params; try (right; split; [discriminate|]; apply (params_c_ok outcome outcome_is); exact H).
  left. split; auto. injection H as <-. reflexivity.
Qed.
