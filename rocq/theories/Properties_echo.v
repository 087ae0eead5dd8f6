(** C113: a program that sends back over a TCP connection what it receives. *)
From Verif Require Import Dotted.
From Verif Require Import TcpLimits Cases TcpSession TcpSend TcpReceive.
From Verif Require Import Datasheet.
From Verif Require Properties_stream.

(** At most [n] calls: receive when there is nothing to send back, otherwise send what is left to be
    sent back.  The first call that fails ends it.  Answers what is left and, if a call failed,
    what it answered. *)
Fixpoint echo (n fuel : nat) (a : History.app) (h : nat) (buf back : list byte) : prog (History.app * list byte * option out) :=
  match n with
  | O => Ret (a, back, None)
  | S n' =>
      match back with
      | [] =>
          do r <- step fuel a (OpTcpReceive h buf) ;;
          match snd r with
          | RTcpReceive buf' (Ok k) => echo n' fuel (fst r) h buf' (take k buf')
          | o => Ret (fst r, [], Some o)
          end
      | _ =>
          do r <- step fuel a (OpTcpSend h back) ;;
          match snd r with
          | RTcpSend (Ok k) => echo n' fuel (fst r) h buf (drop k back)
          | o => Ret (fst r, back, Some o)
          end
      end
  end.

Definition back_so_far (i : N) (r : addr4) (x1 x : sock) (left : list byte) : Prop :=
  exists l, sent x = sent x1 ++ l /\ Forall (fun p => p_sport p = 49849 + i /\ p_ip p = dotted (a_ip r) /\ p_dport p = a_port r) l /\
    rxlog x = concat (map p_data l) ++ left.
Lemma session_back i r x1 acc back del x : session_inv i r x1 acc del x -> acc ++ back = del -> back_so_far i r x1 x (back ++ pending x).
Proof. intros (_ & _ & _ & _ & L & l & S1 & S2 & S3) E. exists l. split; [exact S1|]. split; [exact S3|]. change (concat (map p_data l)) with (payload l). rewrite L, S2, <- E. now rewrite <- app_assoc. Qed.
Lemma echo_receive e fuel h i r x1 acc del a s buf o s' : tcp_session e fuel h i r x1 acc del a s ->
  run e (step fuel a (OpTcpReceive h buf)) s = (o, s') -> (forall a' out, o = Done (a', out) -> out_berr out = None) ->
  (exists n buf', o = Done (a, RTcpReceive buf' (Ok n))) \/
  ((o = Done (a, RTcpReceive buf (Err (NbOther TNotConnected))) \/ o = Looping) /\ session_inv i r x1 acc del (sk i s')).
Proof.
  intros T R NB. destruct (session_facts _ _ _ _ _ _ _ _ _ _ T) as (Hi & I & L & S). pose proof S as (Rd & Rr & _).
  refine (session_call _ e _ (fun o s' => (exists n buf', o = Done (a, RTcpReceive buf' (Ok n))) \/
    ((o = Done (a, RTcpReceive buf (Err (NbOther TNotConnected))) \/ o = Looping) /\ session_inv i r x1 acc del (sk i s'))) s o s' (es_step fuel a _) R _ _).
  { intros [a' out] ->. now apply (NB a' out). }
  cbn [step]. rewrite L. apply wp_bind. apply wp_tcp_receive; auto using nofail_no_faults.
  - intros n d' s2 _ _. apply wp_ret. left. exists n, d'. reflexivity.
  - intros s2 N _. apply wp_ret. right. split; [now left|]. exact (session_sevs i Hi r x1 acc del _ _ N S).
  - intros s2 N. right. split; [now right|]. exact (session_sevs i Hi r x1 acc del _ _ N S).
Qed.
Lemma echo_send e fuel h i r x1 acc del a s d o s' : tcp_session e fuel h i r x1 acc del a s ->
  run e (step fuel a (OpTcpSend h d)) s = (o, s') -> (forall a' out, o = Done (a', out) -> out_berr out = None) ->
  (exists n, o = Done (a, RTcpSend (Ok n)) /\ n <= len d) \/
  (o = Done (a, RTcpSend (Err (NbOther TNotConnected))) /\ session_inv i r x1 acc del (sk i s')) \/
  (o = Looping /\ exists k, rxlog (sk i s') = del ++ pending (sk i s') /\
     exists l, sent (sk i s') = sent x1 ++ l /\ payload l = acc ++ firstn k d /\ Forall (to_peer i r) l).
Proof.
  intros T R NB. destruct (session_facts _ _ _ _ _ _ _ _ _ _ T) as (Hi & I & L & S). pose proof S as (Rd & _ & U & _).
  refine (session_call _ e _ (fun o s' => (exists n, o = Done (a, RTcpSend (Ok n)) /\ n <= len d) \/
    (o = Done (a, RTcpSend (Err (NbOther TNotConnected))) /\ session_inv i r x1 acc del (sk i s')) \/
    (o = Looping /\ exists k, rxlog (sk i s') = del ++ pending (sk i s') /\
     exists l, sent (sk i s') = sent x1 ++ l /\ payload l = acc ++ firstn k d /\ Forall (to_peer i r) l)) s o s' (es_step fuel a _) R _ _).
  { intros [a' out] ->. now apply (NB a' out). }
  cbn [step]. rewrite L. apply wp_bind. apply wp_tcp_send; auto using nofail_no_faults.
  - intros n s2 Hn _. apply wp_ret. left. eauto.
  - intros s2 N _. apply wp_ret. right. left. split; [reflexivity|]. exact (session_sevs i Hi r x1 acc del _ _ N S).
  - intros n s2 Hn (l & k & M & _ & P & _). right. right. split; [reflexivity|].
    destruct (session_sent i Hi r x1 acc del _ l _ S M) as (_ & _ & Lg & l' & A1 & A2 & A3).
    rewrite U, app_nil_l in P. unfold take in P. rewrite firstn_firstn in P. exists (Nat.min k (N.to_nat n)). split; [exact Lg|]. exists l'. rewrite A2, P. auto.
Qed.

(** ** C113.  Whatever the network does, and whatever the sizes of the pieces it brings and takes:
    all that the peer has sent so far is, in order, what has gone back to it, what the program
    still has to send back, and what waits in the chip.  While a call waits for the network too,
    what has gone back is the start of what the peer has sent. *)
Theorem C113_echo : forall n e fuel h i r x1 acc del a s buf back o s',
  tcp_session e fuel h i r x1 acc del a s -> acc ++ back = del ->
  run e (echo n fuel a h buf back) s = (o, s') ->
  (forall a' left last, o = Done (a', left, Some last) -> out_berr last = None) ->
  exists left, (o = Looping \/ exists a' last, o = Done (a', left, last)) /\
    exists l rest, sent (socks (s_chip s') i) = sent x1 ++ l /\
      Forall (fun p => p_sport p = 49849 + i /\ p_ip p = dotted (a_ip r) /\ p_dport p = a_port r) l /\
      rxlog (socks (s_chip s') i) = concat (map p_data l) ++ rest /\
      (o <> Looping -> rest = left ++ pending (socks (s_chip s') i)).
Proof.
  assert (Fin : forall e fuel h i r x1 acc del a s back last, tcp_session e fuel h i r x1 acc del a s -> acc ++ back = del ->
    exists left, (@Done (History.app * list byte * option out) (a, back, last) = Looping \/ exists a' last', Done (a, back, last) = Done (a', left, last')) /\
    exists l rest, sent (sk i s) = sent x1 ++ l /\ Forall (to_peer i r) l /\ rxlog (sk i s) = payload l ++ rest /\
      (@Done (History.app * list byte * option out) (a, back, last) <> Looping -> rest = left ++ pending (sk i s))).
  { intros e fuel h i r x1 acc del a s back last T E. exists back. split; [right; eauto|].
    destruct (session_facts _ _ _ _ _ _ _ _ _ _ T) as (_ & _ & _ & S). destruct (session_back i r x1 acc back del _ S E) as (l & A & B & C). exists l, (back ++ pending (sk i s)). auto. }
  induction n as [|n IH]; intros e fuel h i r x1 acc del a s buf back o s' T E R NB; cbn [echo] in R.
  { cbn [run] in R. injection R as <- <-. eapply Fin; eauto. }
  destruct back as [|b0 back0]; rewrite run_bind in R.
  - rewrite app_nil_r in E. subst acc. destruct (run e (step fuel a (OpTcpReceive h buf)) s) as [o1 s1] eqn:R1. cbn [fst snd] in R.
    assert (N1 : forall a' out, o1 = Done (a', out) -> out_berr out = None).
    { intros a' ou ->. destruct (out_berr ou) as [b|] eqn:Eb; [|reflexivity]. exfalso. destruct ou as [| | | | | |b1 [k|x]| | | | | | |]; cbn [snd fst] in R; try discriminate Eb; cbn [run] in R; injection R as <- _;
        specialize (NB _ _ _ eq_refl); congruence. }
    destruct (echo_receive _ _ _ _ _ _ _ _ _ _ _ _ _ T R1 N1) as [(k & buf' & ->)|([-> | ->] & S)]; cbn [fst snd] in R.
    + pose proof (session_next e fuel h i r x1 del del a s (OpTcpReceive h buf) a _ s1 T Logic.I R1 (fun _ => eq_refl)) as T1. cbn [accepted1 delivered1] in T1. rewrite Nat.eqb_refl, app_nil_r in T1.
      exact (IH e fuel h i r x1 _ _ a s1 buf' _ o s' T1 eq_refl R NB).
    + cbn [run] in R. injection R as <- <-.
      pose proof (session_next e fuel h i r x1 del del a s (OpTcpReceive h buf) a _ s1 T Logic.I R1 (fun _ => eq_refl)) as T1. cbn [accepted1 delivered1] in T1. rewrite app_nil_r in T1.
      eapply Fin; [exact T1|apply app_nil_r].
    + injection R as <- <-. exists []. split; [now left|]. destruct (session_back i r x1 del [] del _ S (app_nil_r _)) as (l & A & B & C). exists l, (pending (sk i s1)). auto.
  - set (back := b0 :: back0) in *. destruct (run e (step fuel a (OpTcpSend h back)) s) as [o1 s1] eqn:R1. cbn [fst snd] in R.
    assert (N1 : forall a' out, o1 = Done (a', out) -> out_berr out = None).
    { intros a' ou ->. destruct (out_berr ou) as [b|] eqn:Eb; [|reflexivity]. exfalso. destruct ou as [| | | | |[k|x]| | | | | | | |]; cbn [snd fst] in R; try discriminate Eb; cbn [run] in R; injection R as <- _;
        specialize (NB _ _ _ eq_refl); congruence. }
    destruct (echo_send _ _ _ _ _ _ _ _ _ _ _ _ _ T R1 N1) as [(k & -> & Hk)|[(-> & S)|(-> & k & Lg & l & A1 & A2 & A3)]]; cbn [fst snd] in R.
    + pose proof (session_next e fuel h i r x1 acc del a s (OpTcpSend h back) a _ s1 T Logic.I R1 (fun _ => eq_refl)) as T1. cbn [accepted1 delivered1] in T1. rewrite Nat.eqb_refl, app_nil_r in T1.
      refine (IH e fuel h i r x1 _ _ a s1 buf _ o s' T1 _ R NB). rewrite <- app_assoc. unfold take, drop. now rewrite firstn_skipn.
    + cbn [run] in R. injection R as <- <-.
      pose proof (session_next e fuel h i r x1 acc del a s (OpTcpSend h back) a _ s1 T Logic.I R1 (fun _ => eq_refl)) as T1. cbn [accepted1 delivered1] in T1. rewrite !app_nil_r in T1.
      eapply Fin; [exact T1|exact E].
    + injection R as <- <-. exists []. split; [now left|]. exists l, (skipn k back ++ pending (sk i s1)). split; [exact A1|]. split; [exact A3|]. split; [|now intros []].
      change (concat (map p_data l)) with (payload l). change (rxlog (sk i s1) = payload l ++ skipn k back ++ pending (sk i s1)).
      rewrite Lg, A2, <- E, <- (firstn_skipn k back) at 1. now rewrite <- !app_assoc.
Qed.
Print Assumptions C113_echo.

(** "abc" arrives and is sent back in two segments; "de" is still on its way back when the calls end. *)
Definition echoed : env := script
  [(20%nat, [EvEstablished 0]); (21%nat, [EvTcpData 0 [x61; x62; x63]]); (50%nat, [EvTransmit 0 2]); (51%nat, [EvTransmit 0 1; EvSendOk 0]); (52%nat, [EvTcpData 0 [x64; x65]])].
Example C113_case : exists x1 s s', tcp_session echoed 30 0 0 Properties_stream.peer x1 [] [] Properties_stream.app1 s /\
  run echoed (echo 3 30 Properties_stream.app1 0 (zeros 8) []) s = (Done (Properties_stream.app1, [x64; x65], None), s') /\
  map p_data (sent (socks (s_chip s') 0)) = [[x61; x62]; [x63]].
Proof.
  exists (socks (s_chip (Properties_stream.connected echoed)) 0), (Properties_stream.afterwards echoed []).
  eexists. split; [|split].
  - exact (Properties_stream.simple_session echoed [] [] ltac:(vm_compute; reflexivity) ltac:(vm_compute; reflexivity) ltac:(constructor) Logic.I).
  - apply run_snd. vm_compute. reflexivity.
  - vm_compute. reflexivity.
Qed.

(** That everything comes back in the end is false: with a one-byte buffer the program gives back
    the first of three bytes and then, in however many rounds, nothing more, although the
    connection stays up and every call succeeds (C39 is why). *)
Definition starved : env := script
  [(20%nat, [EvEstablished 0]); (21%nat, [EvTcpData 0 [x61; x62; x63]]); (50%nat, [EvTransmit 0 1; EvSendOk 0])].
Lemma starving e i fuel h a : no_faults e -> i < 8 -> lookup h (handles a) = Some (HTcp (mkTcp (socket_new i))) ->
  forall n buf s, sr (sk i s) = SOCK_ESTABLISHED -> recvf (sk i s) = false ->
  (forall t, (s_tick s <= t)%nat -> happens e t = []) ->
  exists s', run e (echo n fuel a h buf []) s = (Done (a, [], None), s') /\ s_chip s' = s_chip s.
Proof.
  intros NF Hi L. induction n as [|n IH]; intros buf s Est F Qt; cbn [echo]; [exists s; auto|].
  pose proof (receive_flag_down e i NF Hi fuel buf s Est F Qt) as W. unfold wp in W.
  destruct (run e (tcp_receive fuel (mkTcp (socket_new i)) buf) s) as [o s1] eqn:E. cbn [fst snd] in W. destruct W as (-> & C & T).
  destruct (IH buf s1) as (s' & R & C').
  - unfold sk in *. now rewrite C.
  - unfold sk in *. now rewrite C.
  - intros t Ht. apply Qt. lia.
  - exists s'. split; [|congruence]. cbn [step]. rewrite L, run_bind, run_bind, E. cbn [fst snd run]. exact R.
Qed.
Definition heard (e : env) (s : sys) : sys := snd (run e (step 30 Properties_stream.app1 (OpTcpReceive 0 [x00])) s).
Definition answered (e : env) (s : sys) : sys := snd (run e (step 30 Properties_stream.app1 (OpTcpSend 0 [x61])) s).
Lemma starving_from e s : no_faults e ->
  fst (run e (step 30 Properties_stream.app1 (OpTcpReceive 0 [x00])) s) = Done (Properties_stream.app1, RTcpReceive [x61] (Ok 1)) ->
  fst (run e (step 30 Properties_stream.app1 (OpTcpSend 0 [x61])) (heard e s)) = Done (Properties_stream.app1, RTcpSend (Ok 1)) ->
  sr (sk 0 (answered e (heard e s))) = SOCK_ESTABLISHED -> recvf (sk 0 (answered e (heard e s))) = false ->
  (forall t, (s_tick (answered e (heard e s)) <= t)%nat -> happens e t = []) ->
  forall n, (2 <= n)%nat -> exists s',
    run e (echo n 30 Properties_stream.app1 0 [x00] []) s = (Done (Properties_stream.app1, [], None), s') /\
    s_chip s' = s_chip (answered e (heard e s)).
Proof.
  unfold heard, answered. intros NF. destruct (run e (step 30 Properties_stream.app1 (OpTcpReceive 0 [x00])) s) as [o1 s1] eqn:R1. cbn [fst snd]. intros ->.
  destruct (run e (step 30 Properties_stream.app1 (OpTcpSend 0 [x61])) s1) as [o2 s2] eqn:R2. cbn [fst snd]. intros -> E F Qt n Hn.
  destruct n as [|[|n]]; [lia|lia|].
  destruct (starving e 0 30 0 Properties_stream.app1 NF ltac:(reflexivity) eq_refl n [x61] s2 E F Qt) as (s' & R & C).
  exists s'. split; [|exact C].
  cbn [echo]. rewrite run_bind, R1. cbn [fst snd]. change (take 1 [x61]) with [x61]. cbv iota.
  rewrite run_bind, R2. cbn [fst snd]. exact R.
Qed.
Theorem C113_all_back_refuted : exists x1 s, tcp_session starved 30 0 0 Properties_stream.peer x1 [] [] Properties_stream.app1 s /\
  forall n, (2 <= n)%nat -> exists s',
    run starved (echo n 30 Properties_stream.app1 0 [x00] []) s = (Done (Properties_stream.app1, [], None), s') /\
    sr (socks (s_chip s') 0) = SOCK_ESTABLISHED /\ rxlog (socks (s_chip s') 0) = [x61; x62; x63] /\
    map p_data (sent (socks (s_chip s') 0)) = [[x61]].
Proof.
  exists (socks (s_chip (Properties_stream.connected starved)) 0), (Properties_stream.afterwards starved []). split.
  { exact (Properties_stream.simple_session starved [] [] ltac:(vm_compute; reflexivity) ltac:(vm_compute; reflexivity) ltac:(constructor) Logic.I). }
  assert (Tk : (51 <= s_tick (answered starved (heard starved (Properties_stream.afterwards starved []))))%nat) by (apply Nat.leb_le; vm_compute; reflexivity).
  intros n Hn. destruct (starving_from starved (Properties_stream.afterwards starved []) (script_no_faults _) ltac:(vm_compute; reflexivity) ltac:(vm_compute; reflexivity)
    ltac:(vm_compute; reflexivity) ltac:(vm_compute; reflexivity) ltac:(intros t Ht; apply (script_quiet_after _ 51); [repeat constructor; cbn; lia|lia]) n Hn) as (s' & R & C).
  exists s'. split; [exact R|]. rewrite C. repeat split; vm_compute; reflexivity.
Qed.
Print Assumptions C113_all_back_refuted.
