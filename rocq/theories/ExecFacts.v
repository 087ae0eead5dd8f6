(** Inverting executions, and computing them for given bus answers. *)
From Verif Require Export ProgFacts.

(** [replay p ans]: the execution of [p] when the bus answers [ans] *)
Fixpoint replay {A} (p : prog A) (ans : list (list byte * res unit berr)) : list event * outcome A :=
  match p with
  | Ret a => ([], Done a)
  | Panic w => ([], Panicked w)
  | Spin => ([], Looping)
  | BusRead b a d k =>
      match ans with
      | [] => ([], Cut)
      | (g, r) :: ans' =>
          if Nat.eqb (length g) (length d) then
            let (tr, o) := replay (k (g, r)) ans' in (ERead b a g r :: tr, o)
          else ([], Cut)
      end
  | BusWrite b a d k =>
      match ans with
      | [] => ([], Cut)
      | (_, r) :: ans' => let (tr, o) := replay (k r) ans' in (EWrite b a d r :: tr, o)
      end
  end.

Lemma replay_exec {A} (p : prog A) : forall ans, exec p (fst (replay p ans)) (snd (replay p ans)).
Proof.
  induction p as [a|w| |b a d k IH|b a d k IH]; intros ans; cbn; try constructor.
  - destruct ans as [|[g r] ans]; [constructor|].
    destruct (Nat.eqb_spec (length g) (length d)) as [E|]; [|constructor].
    specialize (IH (g, r) ans). destruct (replay (k (g, r)) ans) as [tr o]. cbn in *. now constructor.
  - destruct ans as [|[g r] ans]; [constructor|].
    specialize (IH r ans). destruct (replay (k r) ans) as [tr o]. cbn in *. now constructor.
Qed.
Lemma replay_eq {A} (p : prog A) ans tr o : replay p ans = (tr, o) -> exec p tr o.
Proof. intros E. pose proof (replay_exec p ans) as H. rewrite E in H. exact H. Qed.

(** ** [?] after one access *)
Lemma exec_try_read {R} blk a n (h : berr -> R) k tr x :
  exec (try_ (read_reg blk a n) h k) tr (Done x) ->
  exists got, length got = n /\
    ((exists tr', tr = ERead blk a got (Ok tt) :: tr' /\ exec (k got) tr' (Done x)) \/
     (exists e, tr = [ERead blk a got (Err e)] /\ x = h e)).
Proof.
  unfold try_, read_reg. cbn. intros X. inversion X; subst. cbn in *.
  unfold zeros in *. rewrite repeat_length in *.
  exists got. split; [auto|]. destruct r as [[]|e]; [left; eauto|right].
  match goal with H : exec (Ret _) _ _ |- _ => apply exec_Ret_inv in H as [-> [H|H]]; [injection H as ->|discriminate] end.
  eauto.
Qed.
Lemma exec_try_write {R} blk a d (h : berr -> R) k tr x :
  exec (try_ (write_frame blk a d) h k) tr (Done x) ->
  (exists tr', tr = EWrite blk a d (Ok tt) :: tr' /\ exec (k tt) tr' (Done x)) \/
  (exists e, tr = [EWrite blk a d (Err e)] /\ x = h e).
Proof.
  unfold try_, write_frame. cbn. intros X. inversion X; subst.
  destruct r as [[]|e]; [left; eauto|right].
  match goal with H : exec (Ret _) _ _ |- _ => apply exec_Ret_inv in H as [-> [H|H]]; [injection H as ->|discriminate] end.
  eauto.
Qed.
(** the register reads of socket.rs: two results *)
Lemma exec_try_rd {R B} blk a n (f : list byte -> B) (h : berr -> R) k tr x :
  exec (try_ (try o <- read_reg blk a n else Err ;; Ret (Ok (f o))) h k) tr (Done x) ->
  exists got, length got = n /\
    ((exists tr', tr = ERead blk a got (Ok tt) :: tr' /\ exec (k (f got)) tr' (Done x)) \/
     (exists e, tr = [ERead blk a got (Err e)] /\ x = h e)).
Proof.
  unfold try_, read_reg. cbn. intros X. inversion X; subst. cbn in *.
  unfold zeros in *. rewrite repeat_length in *.
  exists got. split; [auto|]. destruct r as [[]|e]; [left; eauto|right]. cbn in *.
  match goal with H : exec (Ret _) _ _ |- _ => apply exec_Ret_inv in H as [-> [H|H]]; [injection H as ->|discriminate] end.
  eauto.
Qed.

Lemma one_byte (l : list byte) : length l = 1%nat -> l = [byte0 l].
Proof. destruct l as [|b [|]]; try discriminate. reflexivity. Qed.
