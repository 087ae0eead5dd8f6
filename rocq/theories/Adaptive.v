(** Programs that choose each call by the answers so far. *)
From Verif Require Import Life ChipLogic ProgFacts Asleep.

Section Play.
  Context {St Op Ans : Type} (call : St -> Op -> prog (St * Ans)).
  (** the calls of a list, one after the other: [run_ops] and [run_life] are such *)
  Context (in_turn : St -> list Op -> prog (St * list Ans)).
  Hypothesis in_turn_nil : forall l, in_turn l [] = Ret (l, []).
  Hypothesis in_turn_cons : forall l o ops, in_turn l (o :: ops) = (do r <- call l o ;; do rs <- in_turn (fst r) ops ;; Ret (fst rs, snd r :: snd rs)).
  (** at most [n] calls, each chosen by [next], which is given the answers so far *)
  Fixpoint play (next : list Ans -> option Op) (n : nat) (l : St) (seen : list Ans) : prog (St * list Ans) :=
    match n with
    | O => Ret (l, [])
    | S n' =>
        match next seen with
        | None => Ret (l, [])
        | Some o => do r <- call l o ;; do rs <- play next n' (fst r) (seen ++ [snd r]) ;; Ret (fst rs, snd r :: snd rs)
        end
    end.
  (** every call of [ops] is the one chosen after the answers before it; [next] ends it, or [n] calls are made *)
  Inductive chosen (next : list Ans -> option Op) : nat -> list Ans -> list Op -> list Ans -> Prop :=
  | ch_out seen : chosen next 0 seen [] []
  | ch_end n seen : next seen = None -> chosen next n seen [] []
  | ch_call n seen o out ops outs : next seen = Some o -> chosen next n (seen ++ [out]) ops outs -> chosen next (S n) seen (o :: ops) (out :: outs).
  Definition may_choose (next : list Ans -> option Op) (ops : list Op) : Prop := forall o, In o ops -> exists seen, next seen = Some o.

  Lemma play_run e next : forall n l seen s, exists ops, run e (play next n l seen) s = run e (in_turn l ops) s /\ (length ops <= n)%nat /\ may_choose next ops /\
    forall l' outs, fst (run e (in_turn l ops) s) = Done (l', outs) -> chosen next n seen ops outs.
  Proof.
    induction n as [|n IH]; intros l seen s; cbn [play].
    - exists []. rewrite in_turn_nil. split; [reflexivity|]. split; [apply le_n|]. split; [intros o []|]. intros l' outs [= _ <-]. constructor.
    - destruct (next seen) as [o|] eqn:E.
      2:{ exists []. rewrite in_turn_nil. split; [reflexivity|]. split; [apply Nat.le_0_l|]. split; [intros o []|]. intros l' outs [= _ <-]. now constructor. }
      destruct (fst (run e (call l o) s)) as [r| | |] eqn:F.
      1:{ destruct (IH (fst r) (seen ++ [snd r]) (snd (run e (call l o) s))) as (ops & R & L & M & C). exists (o :: ops). rewrite in_turn_cons.
          assert (R' : forall B (p : St * Ans -> prog B), run e (bind (call l o) p) s = run e (p r) (snd (run e (call l o) s))) by (intros B p; now rewrite run_bind, F).
          rewrite !R'. split; [now rewrite !run_bind, R|]. split; [cbn [length]; now apply le_n_S|]. split.
          { intros o' [<-|H]; [eauto|now apply M]. }
          intros l' outs. rewrite run_bind. destruct (run e (in_turn (fst r) ops) (snd (run e (call l o) s))) as [o2 s2]. cbn [fst snd] in *.
          destruct o2 as [[l2 outs2]| | |]; try discriminate. cbn [run fst snd]. intros [= <- <-]. constructor; [exact E|]. exact (C _ _ eq_refl). }
      all: exists [o]; rewrite in_turn_cons, !run_bind, F; (split; [reflexivity|]); (split; [apply le_n_S, Nat.le_0_l|]); (split; [intros o' [<-|[]]; eauto|]); discriminate.
  Qed.
  (** the same over an arbitrary bus *)
  Lemma play_exec next : forall n l seen tr oc, exec (play next n l seen) tr oc -> exists ops, exec (in_turn l ops) tr oc /\ (length ops <= n)%nat /\ may_choose next ops /\
    forall l' outs, oc = Done (l', outs) -> chosen next n seen ops outs.
  Proof.
    induction n as [|n IH]; intros l seen tr oc X; cbn [play] in X.
    - exists []. rewrite in_turn_nil. split; [exact X|]. split; [apply le_n|]. split; [intros o []|]. intros l' outs ->. inversion X; subst. constructor.
    - destruct (next seen) as [o|] eqn:E.
      2:{ exists []. rewrite in_turn_nil. split; [exact X|]. split; [apply Nat.le_0_l|]. split; [intros o []|]. intros l' outs ->. inversion X; subst. now constructor. }
      apply exec_bind_inv in X as [(t1 & r & t2 & -> & X1 & X2)|(o' & X1 & No & ->)].
      + apply exec_bind_inv in X2 as [(t3 & rs & t4 & -> & X3 & X4)|(o' & X3 & No & ->)].
        * destruct (IH _ _ _ _ X3) as (ops & Y & L & M & C). exists (o :: ops). rewrite in_turn_cons.
          split; [eapply exec_bind_intro; [exact X1|]; eapply exec_bind_intro; [exact Y|exact X4]|]. split; [cbn [length]; now apply le_n_S|]. split.
          { intros o' [<-|H]; [eauto|now apply M]. }
          intros l' outs ->. inversion X4; subst. destruct rs as [l2 outs2]. constructor; [exact E|]. exact (C _ _ eq_refl).
        * destruct (IH _ _ _ _ X3) as (ops & Y & L & M & _). exists (o :: ops). rewrite in_turn_cons.
          split; [eapply exec_bind_intro; [exact X1|]; now apply exec_bind_stop|]. split; [cbn [length]; now apply le_n_S|]. split.
          { intros o1 [<-|H]; [eauto|now apply M]. }
          intros l' outs H. destruct o'; discriminate H.
      + exists [o]. rewrite in_turn_cons. split; [now apply exec_bind_stop|]. split; [apply le_n_S, Nat.le_0_l|]. split; [intros o1 [<-|[]]; eauto|].
        intros l' outs H. destruct o'; discriminate H.
  Qed.
End Play.
