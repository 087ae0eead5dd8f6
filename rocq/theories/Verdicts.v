(** From the accesses of a run to the states of the chip in which they were made. *)
From Verif Require Export Causes.
From Verif Require Import Datasheet ChipLogic FrameFacts.

(** the accesses [tr], made one after the other from [s], with these answers, lead to [s'] *)
Fixpoint performs (e : env) (tr : list event) (s s' : sys) : Prop :=
  match tr with
  | [] => s' = s
  | ERead b a got r :: tr' => exists buf s1, length buf = length got /\ bus_read e b a buf s = ((got, r), s1) /\ performs e tr' s1 s'
  | EWrite b a d r :: tr' => exists s1, bus_write e b a d s = (r, s1) /\ performs e tr' s1 s'
  end.
Lemma run_performs {A} e (p : prog A) : forall s o s', run e p s = (o, s') -> exists tr, exec p tr o /\ performs e tr s s'.
Proof.
  induction p as [a|w| |b a d k IH|b a d k IH]; cbn [run]; intros s o s' R.
  - injection R as <- <-. exists []. split; [constructor|reflexivity].
  - injection R as <- <-. exists []. split; [constructor|reflexivity].
  - injection R as <- <-. exists []. split; [constructor|reflexivity].
  - pose proof (bus_read_length e b a d s) as L. destruct (bus_read e b a d s) as [[g r] s1] eqn:B. cbn [fst] in L.
    destruct (IH _ _ _ _ R) as (tr & X & P). exists (ERead b a g r :: tr). split; [econstructor; eauto|]. exists d, s1. auto.
  - destruct (bus_write e b a d s) as [r s1] eqn:B. destruct (IH _ _ _ _ R) as (tr & X & P). exists (EWrite b a d r :: tr). split; [econstructor; eauto|]. exists s1. auto.
Qed.
Lemma performs_app e tr1 : forall tr2 s s', performs e (tr1 ++ tr2) s s' -> exists s1, performs e tr1 s s1 /\ performs e tr2 s1 s'.
Proof.
  induction tr1 as [|[b a g r|b a d r] tr1 IH]; intros tr2 s s' P; cbn [performs List.app] in *; [eauto| |].
  - destruct P as (buf & s1 & L & B & P). destruct (IH _ _ _ P) as (s2 & P1 & P2). exists s2. split; [eauto|exact P2].
  - destruct P as (s1 & B & P). destruct (IH _ _ _ P) as (s2 & P1 & P2). exists s2. split; [eauto|exact P2].
Qed.
(** one byte read, two bytes read, one byte written: the chip as it was at each byte *)
Lemma read_one e b a g buf s s' : length buf = 1%nat -> bus_read e b a buf s = (([g], Ok tt), s') ->
  s_chip s' = nsteps (s_chip s) (happens e (s_tick s)) /\ s_tick s' = S (s_tick s) /\ g = rbyte (s_chip s') b a.
Proof.
  intros L. unfold bus_read. destruct (fails e (s_call s)) as [[k er]|]; [destruct (read_bytes _ _ _ _ _); discriminate|]. rewrite L. cbn [read_bytes].
  intros E. injection E as <- <-. cbn [s_chip s_tick end_call tick]. auto.
Qed.
Lemma read_two e b a g buf s s' : length buf = 2%nat -> bus_read e b a buf s = ((g, Ok tt), s') ->
  let c := nsteps (s_chip s) (happens e (s_tick s)) in
  s_chip s' = nsteps c (happens e (S (s_tick s))) /\ s_tick s' = S (S (s_tick s)) /\ g = [rbyte c b a; rbyte (s_chip s') b (next_addr a)].
Proof.
  intros L. unfold bus_read. destruct (fails e (s_call s)) as [[k er]|]; [destruct (read_bytes _ _ _ _ _); discriminate|]. rewrite L. cbn [read_bytes].
  intros E. injection E as <- <-. cbn [s_chip s_tick end_call tick]. auto.
Qed.
Lemma write_one e b a v s s' : bus_write e b a [v] s = (Ok tt, s') ->
  s_chip s' = wbyte (nsteps (s_chip s) (happens e (s_tick s))) b a v /\ s_tick s' = S (s_tick s).
Proof.
  unfold bus_write. destruct (fails e (s_call s)) as [[k er]|]; [discriminate|]. intros E. injection E as <-. cbn [write_bytes end_call on_chip tick s_chip s_tick]. auto.
Qed.

(** ** A chip whose sockets show statuses of the datasheet goes on doing so *)
Definition shows (c : chip) : Prop := forall j, status_try_from (u8 (sr (socks c j))) <> None.
Lemma shows_set c n x : shows c -> (status_try_from (u8 (sr (socks c n))) <> None -> status_try_from (u8 (sr x)) <> None) -> shows (set_sock c n x).
Proof. intros H K j. cbn [set_sock socks]. destruct (N.eqb_spec j n) as [->|]; auto. Qed.
Ltac kn := first [assumption|vm_compute; discriminate].
Lemma sr_rx_append s d : sr (rx_append s d) = sr s.
Proof. unfold rx_append. destruct (_ <=? _); reflexivity. Qed.
Lemma sr_transmit s k : sr (transmit s k) = sr s.
Proof. unfold transmit. destruct (tx_busy s); [|reflexivity]. cbv zeta. repeat match goal with |- context [if ?b then _ else _] => destruct b end; reflexivity. Qed.
Lemma shows_step s ev : status_try_from (u8 (sr s)) <> None -> status_try_from (u8 (sr (sock_step s ev))) <> None.
Proof.
  intros H. destruct ev; cbn [sock_step]; rewrite ?sr_transmit;
    repeat match goal with |- context [if ?b then _ else _] => destruct b end; rewrite ?sr_rx_append; cbv zeta;
    cbn [sr set_ir set_sr set_tx_okdue set_tx_busy set_tx_ack set_tx_rd]; kn.
Qed.
Lemma shows_nstep c ev : shows c -> shows (nstep c ev).
Proof.
  intros H. unfold nstep. destruct (ev_sock ev); [apply shows_set; [exact H|apply shows_step]|]. destruct ev; exact H.
Qed.
Lemma shows_nsteps l : forall c, shows c -> shows (nsteps c l).
Proof. induction l as [|ev l IH]; intros c H; [exact H|]. apply IH, shows_nstep, H. Qed.
Lemma shows_command n s v : status_try_from (u8 (sr s)) <> None -> status_try_from (u8 (sr (do_command n s v))) <> None.
Proof.
  intros H. unfold do_command. cbv zeta. repeat match goal with |- context [if ?b then _ else _] => destruct b end;
    cbn [sr set_dialled set_ir set_sr set_tx_okdue set_tx_busy set_tx_ack set_tx_rd set_tx_end set_rx_base]; kn.
Qed.
Lemma shows_wr n s a v : status_try_from (u8 (sr s)) <> None -> status_try_from (u8 (sr (sock_wr n s a v))) <> None.
Proof. intros H. unfold sock_wr. destruct (a =? Sn_CR); [now apply shows_command|]. destruct (a =? Sn_IR); [exact H|]. destruct (read_only a); exact H. Qed.
Lemma shows_wbyte c b a v : shows c -> shows (wbyte c b a v).
Proof.
  intros H. unfold wbyte. destruct (b =? 0).
  - destruct (a =? MR); [destruct (N.testbit _ _); [intros j; cbn; discriminate|exact H]|]. destruct (a =? VERSIONR); exact H.
  - cbv zeta. destruct (b mod 4) as [|[[q|q|]|[q|q|]|]]; try exact H.
    + destruct (rx_size _ =? 0); [exact H|]. apply shows_set; auto.
    + destruct (tx_size _ =? 0); [exact H|]. apply shows_set; auto.
    + apply shows_set; [exact H|apply shows_wr].
Qed.
Lemma shows_read e b n : forall a s, shows (s_chip s) -> shows (s_chip (snd (read_bytes e b a n s))).
Proof.
  induction n as [|n IH]; intros a s H; cbn [read_bytes]; [exact H|]. pose proof (IH (next_addr a) (tick e s) (shows_nsteps _ _ H)) as K.
  destruct (read_bytes e b (next_addr a) n (tick e s)). exact K.
Qed.
Lemma shows_write e b d : forall a s, shows (s_chip s) -> shows (s_chip (write_bytes e b a d s)).
Proof. induction d as [|v d IH]; intros a s H; cbn [write_bytes]; [exact H|]. apply IH. cbn [on_chip s_chip tick]. now apply shows_wbyte, shows_nsteps. Qed.
Lemma shows_run {A} e (p : prog A) : forall s o s', run e p s = (o, s') -> shows (s_chip s) -> shows (s_chip s').
Proof.
  induction p as [a|w| |b a d k IH|b a d k IH]; cbn [run]; intros s o s' R H; try (injection R as _ <-; exact H).
  - destruct (bus_read e b a d s) as [r s1] eqn:B. refine (IH _ _ _ _ R _). unfold bus_read in B. destruct (fails e (s_call s)) as [[q er]|].
    + pose proof (shows_read e b (Nat.min q (length d)) a s H) as K. destruct (read_bytes e b a _ s). injection B as _ <-. exact K.
    + pose proof (shows_read e b (length d) a s H) as K. destruct (read_bytes e b a _ s). injection B as _ <-. exact K.
  - destruct (bus_write e b a d s) as [r s1] eqn:B. refine (IH _ _ _ _ R _). unfold bus_write in B. destruct (fails e (s_call s)) as [[q er]|]; injection B as _ <-; apply shows_write, H.
Qed.
(** events of other sockets leave a socket alone *)
Lemma nsteps_aside i l : forall c, Forall (fun ev => ev_sock ev <> Some i) l -> socks (nsteps c l) i = socks c i.
Proof.
  induction l as [|ev l IH]; intros c H; [reflexivity|]. inversion H as [|? ? H1 H2]; subst. unfold nsteps in *. cbn [fold_left]. rewrite IH by exact H2.
  unfold nstep. destruct (ev_sock ev) as [n|]; [|destruct ev; reflexivity]. cbn [set_sock socks]. destruct (N.eqb_spec i n) as [->|]; [now contradiction H1|reflexivity].
Qed.

(** ** A run that only reads leaves the chip to the network *)
Fixpoint only_reads {A} (e : env) (p : prog A) (s : sys) : bool :=
  match p with
  | BusRead b a d k => let (r, s1) := bus_read e b a d s in only_reads e (k r) s1
  | BusWrite _ _ _ _ => false
  | _ => true
  end.
Lemma read_alone e b n : forall a s, let s' := snd (read_bytes e b a n s) in
  s_tick s' = (s_tick s + n)%nat /\ s_chip s' = alone e (s_chip s) (s_tick s) n.
Proof.
  induction n as [|n IH]; intros a s; cbn [read_bytes alone]; [cbn; auto with arith|]. specialize (IH (next_addr a) (tick e s)).
  destruct (read_bytes e b (next_addr a) n (tick e s)) as [l s2]. cbn [snd] in *. destruct IH as [-> ->]. cbn [tick s_tick s_chip]. split; [lia|reflexivity].
Qed.
Lemma only_reads_alone {A} e (p : prog A) : forall s, only_reads e p s = true -> exists n,
  s_tick (snd (run e p s)) = (s_tick s + n)%nat /\ s_chip (snd (run e p s)) = alone e (s_chip s) (s_tick s) n.
Proof.
  induction p as [a|w| |b a d k IH|b a d k IH]; cbn [run only_reads]; intros s H; try discriminate H; try (exists 0%nat; split; [cbn; lia|reflexivity]).
  assert (B : exists n, s_tick (snd (bus_read e b a d s)) = (s_tick s + n)%nat /\ s_chip (snd (bus_read e b a d s)) = alone e (s_chip s) (s_tick s) n).
  { unfold bus_read. destruct (fails e (s_call s)) as [[q er]|].
    - pose proof (read_alone e b (Nat.min q (length d)) a s) as K. cbv zeta in K. destruct (read_bytes e b a _ s). eexists. exact K.
    - pose proof (read_alone e b (length d) a s) as K. cbv zeta in K. destruct (read_bytes e b a _ s). eexists. exact K. }
  destruct (bus_read e b a d s) as [r s1]. cbn [snd] in B. destruct B as (n & T & C). destruct (IH _ _ H) as (m & T' & C'). exists (n + m)%nat.
  rewrite alone_add, <- C, <- T. split; [lia|exact C'].
Qed.
