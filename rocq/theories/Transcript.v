(** The bus calls of a call that succeeded, over an arbitrary bus. *)
From Verif Require Export HistoryFacts RawHistory.
From Verif Require Import Waits CallFacts.

(** ** Peeling one bus call off *)
Lemma plain_read_on {R} b a n (h : berr -> R) (k : list byte -> prog R) tr o : o <> Cut -> (forall e, o <> Done (h e)) ->
  exec (try_ (read_reg b a n) h k) tr o ->
  exists d w, length d = n /\ tr = ERead b a d (Ok tt) :: w /\ exec (k d) w o.
Proof.
  intros Nc Nd X. cbn in X. inversion X; subst; [congruence|].
  destruct r as [[]|x]; [|match goal with Y : exec _ _ _ |- _ => inversion Y; subst; [congruence|now elim (Nd x)] end].
  exists got. eexists. split; [|split; [reflexivity|]]; [|match goal with Y : exec _ _ _ |- _ => exact Y end].
  match goal with Y : length got = _ |- _ => rewrite Y end. apply repeat_length.
Qed.
Lemma write_on {R} b a d (h : berr -> R) (k : unit -> prog R) tr o : o <> Cut -> (forall e, o <> Done (h e)) ->
  exec (try_ (write_frame b a d) h k) tr o -> exists w, tr = EWrite b a d (Ok tt) :: w /\ exec (k tt) w o.
Proof.
  intros Nc Nd X. cbn in X. inversion X; subst; [congruence|].
  destruct r as [[]|x]; [|match goal with Y : exec _ _ _ |- _ => inversion Y; subst; [congruence|now elim (Nd x)] end].
  eexists. split; [reflexivity|]. match goal with Y : exec _ _ _ |- _ => exact Y end.
Qed.
Lemma try_on {A E R} (p : prog (res A E)) (h : E -> R) k tr r : (forall e, h e <> r) -> exec (try_ p h k) tr (Done r) ->
  exists t1 a t2, tr = t1 ++ t2 /\ exec p t1 (Done (Ok a)) /\ exec (k a) t2 (Done r).
Proof.
  intros Nh X. apply exec_bind_done in X as (t1 & [a|e] & t2 & -> & X1 & X); [eauto 8|]. inversion X; subst. now elim (Nh e).
Qed.
Lemma ret_on {A} (a : A) tr b : exec (Ret a) tr (Done b) -> tr = [] /\ b = a.
Proof. inversion 1; auto. Qed.
Ltac disc := match goal with |- _ <> Cut => discriminate | |- forall e, _ <> _ => intros ?; discriminate end.
Ltac rd X d L := first
  [ apply read_on in X as (d & ? & L & -> & X); [|disc|disc]
  | apply plain_read_on in X as (d & ? & L & -> & X); [|disc|disc] ].
Ltac wr X := apply write_on in X as (? & -> & X); [|disc|disc].

(** ** The loops *)
Lemma sendok_done s : forall fuel tr r, exec (wait_send_ok fuel s) tr (Done (Ok r)) -> exists l c,
  tr = map (fun c => ERead (register s) 0x02 [c] (Ok tt)) (l ++ [c]) /\ N.testbit (b2n c) 4 = true /\
  forall c', In c' l -> N.testbit (b2n c') 4 = false.
Proof.
  induction fuel as [|fuel IH]; intros tr r X; cbn [wait_send_ok] in X; [inversion X|].
  unfold has_interrupt in X. rd X d L. apply Waits.one_byte in L as (c & ->). cbn [byte0] in X. destruct (negb _) eqn:E.
  - apply ret_on in X as [-> _]. exists [], c. split; [reflexivity|]. split; [|intros ? []].
    clear - E. destruct c; try reflexivity; vm_compute in E; discriminate E.
  - destruct (IH _ _ X) as (l & c' & -> & B & N). exists (c :: l), c'. split; [reflexivity|]. split; [exact B|].
    intros c'' [<-|Hc]; [|auto]. clear - E. destruct c; try reflexivity; vm_compute in E; discriminate E.
Qed.
Definition two (q : list byte * list byte) : Prop := length (fst q) = 2%nat /\ length (snd q) = 2%nat.
Definition sized (b : N) (l : list (list byte * list byte)) : list event :=
  flat_map (fun q => [ERead b 0x26 (fst q) (Ok tt); ERead b 0x26 (snd q) (Ok tt)]) l.
Lemma size_done s : forall fuel tr n, exec (get_receive_size fuel s) tr (Done (Ok n)) ->
  exists l w, Forall (fun q => fst q <> snd q /\ two q) l /\ length w = 2%nat /\ n = from_be w /\ tr = sized (register s) (l ++ [(w, w)]).
Proof.
  induction fuel as [|fuel IH]; intros tr n X; cbn [get_receive_size] in X; [inversion X|]. rd X w L. rd X w' L'. destruct (bytes_eqb w w') eqn:E.
  - apply bytes_eqb_eq in E. subst w'. apply ret_on in X as [-> [= ->]]. exists [], w. auto.
  - destruct (IH _ _ X) as (l & v & F & Lv & -> & ->). exists ((w, w') :: l), v. split; [|auto]. constructor; [|exact F]. cbn [fst snd]. split; [|split; assumption].
    intros ->. rewrite bytes_eqb_refl in E. discriminate E.
Qed.

(** ** TCP send *)
Lemma tcp_data_done fuel t d tr n : exec (tcp_send_data fuel t d) tr (Done (Ok n)) -> n = len d /\ exists p l c, length p = 2%nat /\
  tr = [ERead (register (t_socket t)) 0x24 p (Ok tt); EWrite (tx_buffer (t_socket t)) (from_be p) d (Ok tt);
        EWrite (register (t_socket t)) 0x24 (to_be (wadd16 (from_be p) (as_u16 (len d)))) (Ok tt); EWrite (register (t_socket t)) 0x01 [x20] (Ok tt)] ++
       map (fun c => ERead (register (t_socket t)) 0x02 [c] (Ok tt)) (l ++ [c]) ++ [EWrite (register (t_socket t)) 0x02 [x10] (Ok tt)] /\
  N.testbit (b2n c) 4 = true /\ forall c', In c' l -> N.testbit (b2n c') 4 = false.
Proof.
  intros X. unfold tcp_send_data, get_tx_write_pointer, set_tx_write_pointer, command, reset_interrupt in X.
  rd X p L. wr X. wr X. wr X. apply try_on in X as (t1 & [] & t2 & -> & X1 & X); [|discriminate]. wr X. apply ret_on in X as [-> [= ->]].
  split; [reflexivity|]. destruct (sendok_done _ _ _ _ X1) as (l & c & -> & B & N). exists p, l, c. split; [exact L|]. split; [reflexivity|]. auto.
Qed.
Lemma tcp_send_done fuel t d tr n : exec (tcp_send fuel t d) tr (Done (Ok n)) -> exists f p l c, length f = 2%nat /\ length p = 2%nat /\
  n = N.min (len d) (from_be f) /\
  tr = [ERead (register (t_socket t)) 0x03 [x17] (Ok tt); ERead (register (t_socket t)) 0x20 f (Ok tt);
        ERead (register (t_socket t)) 0x24 p (Ok tt); EWrite (tx_buffer (t_socket t)) (from_be p) (firstn (N.to_nat n) d) (Ok tt);
        EWrite (register (t_socket t)) 0x24 (to_be (wadd16 (from_be p) (as_u16 n))) (Ok tt); EWrite (register (t_socket t)) 0x01 [x20] (Ok tt)] ++
       map (fun c => ERead (register (t_socket t)) 0x02 [c] (Ok tt)) (l ++ [c]) ++ [EWrite (register (t_socket t)) 0x02 [x10] (Ok tt)] /\
  N.testbit (b2n c) 4 = true /\ forall c', In c' l -> N.testbit (b2n c') 4 = false.
Proof.
  intros X. unfold tcp_send in X. apply try_on in X as (t1 & n' & t2 & -> & X & Y); [|discriminate]. apply ret_on in Y as [-> [= ->]]. rewrite app_nil_r.
  unfold tcp_socket_send, tcp_is_connected in X. apply try_on in X as (t2 & conn & t3 & -> & X1 & X); [|discriminate].
  unfold get_status in X1. rd X1 s L. apply Waits.one_byte in L as (st & ->). cbn [byte0] in X1. apply ret_on in X1 as [-> [= ->]].
  change (status_u8 StEstablished) with 23 in X; destruct (b2n st =? 23) eqn:E; cbn [negb] in X; [|apply ret_on in X as [_ X]; discriminate X].
  assert (st = x17) as -> by (clear - E; destruct st; try reflexivity; vm_compute in E; discriminate E).
  unfold get_tx_free_size in X. rd X f L. destruct (len d <? from_be f) eqn:F.
  - apply tcp_data_done in X as (-> & p & l & c & Lp & -> & B & N). apply N.ltb_lt in F. exists f, p, l, c.
    split; [exact L|]. split; [exact Lp|]. split; [lia|]. split; [|auto]. unfold len. rewrite Nnat.Nat2N.id, firstn_all. reflexivity.
  - apply N.ltb_ge in F. unfold slice_to in X. destruct (from_be f <=? len d) eqn:G; [|inversion X]. apply tcp_data_done in X as (-> & p & l & c & Lp & -> & B & N). exists f, p, l, c.
    assert (En : len (take (from_be f) d) = from_be f) by (unfold len, take in *; rewrite firstn_length_le by lia; lia).
    split; [exact L|]. split; [exact Lp|]. rewrite En. split; [lia|]. split; [reflexivity|]. auto.
Qed.

(** ** TCP receive *)
Lemma tcp_receive_done fuel t d tr d' n : exec (tcp_receive fuel t d) tr (Done (d', Ok n)) -> exists f, 
  (tr = [ERead (register (t_socket t)) 0x03 [x17] (Ok tt); ERead (register (t_socket t)) 0x02 [f] (Ok tt)] /\ N.testbit (b2n f) 2 = false /\ n = 0 /\ d' = d) \/
  (N.testbit (b2n f) 2 = true /\ exists l w p got, Forall (fun q => fst q <> snd q /\ two q) l /\ length w = 2%nat /\ length p = 2%nat /\ n = N.min (len d) (from_be w) /\ len got = n /\
   d' = got ++ skipn (N.to_nat n) d /\
   tr = [ERead (register (t_socket t)) 0x03 [x17] (Ok tt); ERead (register (t_socket t)) 0x02 [f] (Ok tt)] ++ sized (register (t_socket t)) (l ++ [(w, w)]) ++
     [ERead (register (t_socket t)) 0x28 p (Ok tt); ERead (rx_buffer (t_socket t)) (from_be p) got (Ok tt);
      EWrite (register (t_socket t)) 0x28 (to_be (wadd16 (from_be p) (as_u16 n))) (Ok tt); EWrite (register (t_socket t)) 0x01 [x40] (Ok tt);
      EWrite (register (t_socket t)) 0x02 [x04] (Ok tt)]).
Proof.
  intros X. unfold tcp_receive in X. apply exec_bind_done in X as (t1 & r & t2 & -> & X & Y). apply ret_on in Y as [-> Y]. injection Y as -> Er. rewrite app_nil_r.
  destruct r as [d' [n'|e]]; [|discriminate Er]. cbn [fst snd] in *. injection Er as ->.
  unfold tcp_socket_receive, tcp_is_connected in X. apply try_on in X as (t2 & conn & t3 & -> & X1 & X); [|discriminate].
  unfold get_status in X1. rd X1 s L. apply Waits.one_byte in L as (st & ->). cbn [byte0] in X1. apply ret_on in X1 as [-> [= ->]].
  change (status_u8 StEstablished) with 23 in X; destruct (b2n st =? 23) eqn:E; cbn [negb] in X; [|apply ret_on in X as [_ X]; discriminate X].
  assert (st = x17) as -> by (clear - E; destruct st; try reflexivity; vm_compute in E; discriminate E).
  unfold has_interrupt in X. rd X fl L. apply Waits.one_byte in L as (f & ->). cbn [byte0] in X. exists f. destruct (negb (N.land _ _ =? 0)) eqn:Ef; cbn [negb] in X.
  2:{ left. apply ret_on in X as [-> X]. injection X as -> ->. split; [reflexivity|]. split; [|auto]. clear - Ef. destruct f; try reflexivity; vm_compute in Ef; discriminate Ef. }
  right. split; [clear - Ef; destruct f; try reflexivity; vm_compute in Ef; discriminate Ef|].
  apply try_on in X as (t1 & sz & t2 & -> & X1 & X); [|discriminate]. apply size_done in X1 as (l & w & D & Lw & -> & ->).
  assert (Y : exists m, m = N.min (len d) (from_be w) /\ exec (tcp_receive_data t m d) t2 (Done (d', Ok n'))).
  { destruct (len d <? from_be w) eqn:F; [apply N.ltb_lt in F; exists (len d); split; [lia|exact X]|]. apply N.ltb_ge in F.
    destruct (from_be w <=? len d); [|inversion X]. exists (from_be w). split; [lia|exact X]. }
  clear X. destruct Y as (m & Em & X). assert (Hm : m <= len d) by lia. unfold tcp_receive_data, get_rx_read_pointer, set_rx_read_pointer, command, reset_interrupt in X. rd X p L.
  apply exec_bind_done in X as (t3 & [got r] & t4 & -> & X1 & X). cbn in X1. inversion X1; subst. match goal with Y : exec (Ret _) _ _ |- _ => apply ret_on in Y as [-> Y]; injection Y as -> -> end. cbn [fst snd] in X.
  match goal with Y : exec (match ?r with _ => _ end) _ _ |- _ => destruct r as [[]|x] end; [|apply ret_on in X as [_ X]; discriminate X].
  do 3 wr X. apply ret_on in X as [-> X]. injection X as -> ->.
  assert (El : len (take (N.min (len d) (from_be w)) d) = N.min (len d) (from_be w)) by (unfold len, take in *; rewrite firstn_length_le by lia; lia).
  rewrite El. match goal with Y : length _ = length (take _ _) |- _ => rename Y into Lg end.
  eexists l, w, p, _. split; [exact D|]. split; [exact Lw|]. split; [exact L|]. split; [reflexivity|]. split; [unfold len at 1; rewrite Lg; exact El|]. split; reflexivity.
Qed.

(** ** TCP connect *)
Definition opening (b : N) (port : list byte) : list event :=
  [EWrite b 0x01 [x10] (Ok tt); EWrite b 0x02 [xff] (Ok tt); EWrite b 0x04 port (Ok tt); EWrite b 0x00 [x01] (Ok tt);
   EWrite b 0x2c [x00] (Ok tt); EWrite b 0x01 [x01] (Ok tt)].
Definition again (b : N) : list event :=
  [EWrite b 0x00 [x00] (Ok tt); EWrite b 0x01 [x10] (Ok tt); EWrite b 0x01 [x10] (Ok tt); EWrite b 0x02 [xff] (Ok tt); EWrite b 0x00 [x01] (Ok tt);
   EWrite b 0x2c [x00] (Ok tt); EWrite b 0x01 [x01] (Ok tt)].
Lemma again_done t tr r : exec (try a <- tcp_socket_close t else Err ;; tcp_reopen t) tr (Done (Ok r)) -> tr = again (register (t_socket t)).
Proof.
  intros X. apply try_on in X as (t1 & [] & t2 & -> & X1 & X); [|discriminate].
  unfold tcp_socket_close, tcp_reopen, set_mode, command, reset_interrupt, set_interrupt_mask in *.
  do 2 wr X1. apply ret_on in X1 as [-> _]. do 5 wr X. apply ret_on in X as [-> _]. reflexivity.
Qed.
Lemma connect_wait_done t : forall fuel tr r, exec (tcp_connect_wait fuel t) tr (Done (Ok r)) -> exists l c rest,
  tr = map (fun c => ERead (register (t_socket t)) 0x03 [c] (Ok tt)) (l ++ [c]) ++ rest /\ ~ In x17 l /\ ~ In x00 l /\
  (c = x17 /\ rest = [] \/ c = x00 /\ rest = again (register (t_socket t))).
Proof.
  induction fuel as [|fuel IH]; intros tr r X; cbn [tcp_connect_wait] in X; [inversion X|].
  unfold get_status in X. rd X d L. apply Waits.one_byte in L as (c & ->). change (byte0 [c]) with c in X.
  assert (K : (c = x17 /\ status_try_from c = Some StEstablished) \/ (c = x00 /\ status_try_from c = Some StClosed) \/
    (c <> x17 /\ c <> x00 /\ status_try_from c <> Some StEstablished /\ status_try_from c <> Some StClosed)).
  { clear. destruct c; try (left; split; reflexivity); try (right; left; split; reflexivity); right; right; repeat split; discriminate. }
  destruct K as [[-> E]|[[-> E]|(N1 & N0 & E1 & E0)]].
  - rewrite E in X. apply ret_on in X as [-> _]. exists [], x17, []. split; [reflexivity|]. split; [intros []|]. split; [intros []|]. auto.
  - rewrite E in X. apply again_done in X. subst. exists [], x00, (again (register (t_socket t))). split; [reflexivity|]. split; [intros []|]. split; [intros []|]. auto.
  - assert (Y : exec (tcp_connect_wait fuel t) x (Done (Ok r))) by (destruct (status_try_from c) as [[]|]; try exact X; now (elim E1 || elim E0)).
    destruct (IH _ _ Y) as (l & c' & rest & -> & H1 & H0 & H). exists (c :: l), c', rest. split; [reflexivity|]. split; [intros [Z|Z]; auto|]. split; [intros [Z|Z]; auto|]. exact H.
Qed.
Lemma do_connect_done fuel t r tr x : exec (tcp_do_connect fuel t r) tr (Done (Ok x)) -> exists l c rest,
  tr = [EWrite (register (t_socket t)) 0x0c (octets (a_ip r)) (Ok tt); EWrite (register (t_socket t)) 0x10 (to_be (a_port r)) (Ok tt);
        EWrite (register (t_socket t)) 0x01 [x04] (Ok tt)] ++ map (fun c => ERead (register (t_socket t)) 0x03 [c] (Ok tt)) (l ++ [c]) ++ rest /\
  ~ In x17 l /\ ~ In x00 l /\ (c = x17 /\ rest = [] \/ c = x00 /\ rest = again (register (t_socket t))).
Proof.
  intros X. unfold tcp_do_connect, set_destination_ip, set_destination_port, command in X. do 3 wr X.
  destruct (connect_wait_done _ _ _ _ X) as (l & c & rest & -> & H). exists l, c, rest. split; [reflexivity|exact H].
Qed.
Lemma connect_done fuel t r tr x : exec (tcp_connect fuel t (V4 r)) tr (Done (Ok x)) -> exists st mid l c rest,
  tr = opening (register (t_socket t)) (to_be (49849 + index (t_socket t))) ++ [ERead (register (t_socket t)) 0x03 [st] (Ok tt)] ++ mid ++
       [EWrite (register (t_socket t)) 0x0c (octets (a_ip r)) (Ok tt); EWrite (register (t_socket t)) 0x10 (to_be (a_port r)) (Ok tt);
        EWrite (register (t_socket t)) 0x01 [x04] (Ok tt)] ++ map (fun c => ERead (register (t_socket t)) 0x03 [c] (Ok tt)) (l ++ [c]) ++ rest /\
  (st = x13 /\ mid = [] \/ st <> x13 /\ st <> x22 /\ st <> x42 /\ (exists s, status_try_from st = Some s) /\ mid = again (register (t_socket t))) /\
  ~ In x17 l /\ ~ In x00 l /\ (c = x17 /\ rest = [] \/ c = x00 /\ rest = again (register (t_socket t))).
Proof.
  intros X. unfold tcp_connect in X. apply try_on in X as (t1 & [] & t2 & -> & X1 & X); [|discriminate].
  unfold tcp_open, set_mode, command, reset_interrupt, set_interrupt_mask, set_source_port in X1. do 6 wr X1. apply ret_on in X1 as [-> _].
  apply try_on in X as (t1 & [] & t3 & -> & X1 & X); [|discriminate]. apply ret_on in X as [-> _]. rewrite app_nil_r.
  unfold tcp_socket_connect, get_status in X1. rd X1 d L. apply Waits.one_byte in L as (st & ->). change (byte0 [st]) with st in X1. rename x0 into w.
  assert (K : (st = x13 /\ status_try_from st = Some StInit) \/
    (st <> x13 /\ st <> x22 /\ st <> x42 /\ (exists s, status_try_from st = Some s) /\ exec (try a <- tcp_socket_close t else Err ;; try b <- tcp_reopen t else Err ;; tcp_do_connect fuel t r) w (Done (Ok tt)))).
  { destruct (status_try_from st) as [[]|] eqn:E; try (apply ret_on in X1 as [_ X1]; discriminate X1).
    2:{ left. split; [|reflexivity]. clear - E. destruct st; try reflexivity; vm_compute in E; discriminate E. }
    all: right; split; [intros ->; vm_compute in E; discriminate E|]; split; [intros ->; vm_compute in E; discriminate E|]; split; [intros ->; vm_compute in E; discriminate E|]; split; [eauto|exact X1]. }
  destruct K as [[-> E]|(N1 & N2 & N3 & K & Y)].
  - rewrite E in X1. destruct (do_connect_done _ _ _ _ _ X1) as (l & c & rest & -> & H). exists x13, [], l, c, rest. split; [reflexivity|]. split; [auto|exact H].
  - clear X1. apply try_on in Y as (u1 & [] & u2 & -> & Y1 & Y); [|discriminate]. apply try_on in Y as (u3 & [] & u4 & -> & Y2 & Y); [|discriminate].
    assert (A : u1 ++ u3 = again (register (t_socket t))).
    { unfold tcp_socket_close, tcp_reopen, set_mode, command, reset_interrupt, set_interrupt_mask in *.
      do 2 wr Y1. apply ret_on in Y1 as [-> _]. do 5 wr Y2. apply ret_on in Y2 as [-> _]. reflexivity. }
    destruct (do_connect_done _ _ _ _ _ Y) as (l & c & rest & -> & H). exists st, (u1 ++ u3), l, c, rest. split; [rewrite <- !app_assoc; reflexivity|].
    split; [right; auto 6|exact H].
Qed.

(** ** MACRAW write *)
Lemma raw_write_done fuel r d tr n : exec (raw_write_frame fuel r d) tr (Done (Ok n)) -> exists f p l c, length f = 2%nat /\ length p = 2%nat /\
  n = (if len d <=? from_be f then len d else 0) /\
  tr = [EWrite (register (raw_socket r)) 0x02 [x10] (Ok tt); ERead (register (raw_socket r)) 0x20 f (Ok tt); ERead (register (raw_socket r)) 0x24 p (Ok tt)] ++
       (if n =? 0 then [] else [EWrite (tx_buffer (raw_socket r)) (from_be p) d (Ok tt)]) ++
       [EWrite (register (raw_socket r)) 0x24 (to_be (if n =? 0 then from_be p else wadd16 (from_be p) n)) (Ok tt); EWrite (register (raw_socket r)) 0x01 [x20] (Ok tt)] ++
       map (fun c => ERead (register (raw_socket r)) 0x02 [c] (Ok tt)) (l ++ [c]) /\
  N.testbit (b2n c) 4 = true /\ forall c', In c' l -> N.testbit (b2n c') 4 = false.
Proof.
  intros X. unfold raw_write_frame, reset_interrupt in X. wr X. apply try_on in X as (t1 & cu & t2 & -> & X1 & X); [|discriminate].
  unfold tx_new, get_tx_free_size, get_tx_write_pointer in X1. rd X1 f Lf. rd X1 p Lp. apply ret_on in X1 as [-> [= ->]].
  apply try_on in X as (t1 & cn & t3 & -> & X1 & X); [|discriminate].
  apply try_on in X as (t4 & [] & t5 & -> & X2 & X); [|discriminate]. unfold tx_commit, set_tx_write_pointer, command in X2. do 2 wr X2. apply ret_on in X2 as [-> _].
  apply try_on in X as (t4 & [] & t6 & -> & X2 & X); [|discriminate]. apply ret_on in X as [-> [= ->]]. destruct (sendok_done _ _ _ _ X2) as (l & c & -> & B & N).
  exists f, p, l, c. split; [exact Lf|]. split; [exact Lp|]. rewrite app_nil_r.
  assert (Bf : from_be f < 65536) by (now apply from_be_lt).
  unfold tx_write, available in X1. cbn [size ptr] in X1. destruct ((len d =? 0) || (from_be f <? len d)) eqn:E.
  - apply ret_on in X1 as [-> [= ->]]. cbn [fst snd ptr]. apply Bool.orb_true_iff in E. split.
    { destruct E as [E|E]; [apply N.eqb_eq in E; rewrite E; now destruct (_ <=? _)|]. apply N.ltb_lt in E. destruct (len d <=? from_be f) eqn:G; [apply N.leb_le in G; lia|reflexivity]. }
    split; [reflexivity|]. auto.
  - apply Bool.orb_false_iff in E as [E1 E2]. apply N.eqb_neq in E1. apply N.ltb_ge in E2. assert (Ea : as_u16 (len d) = len d) by (apply N.mod_small; lia). rewrite Ea in X1.
    unfold slice_to in X1. destruct (len d <=? len d) eqn:G; [|inversion X1]. wr X1. destruct (from_be f <? len d); [inversion X1|]. apply ret_on in X1 as [-> [= ->]]. cbn [fst snd ptr].
    split; [apply N.leb_le in E2; now rewrite E2|]. apply N.eqb_neq in E1. rewrite E1. split; [|auto].
    unfold take, len. rewrite Nnat.Nat2N.id, firstn_all. reflexivity.
Qed.

(** ** UDP send *)
Definition pairs (b : N) (l : list (list byte * list byte)) : list event :=
  flat_map (fun q => [ERead b 0x22 (fst q) (Ok tt); ERead b 0x24 (snd q) (Ok tt)]) l.
Definition settled (b : N) (e : list event) : Prop :=
  (exists c, N.testbit (b2n c) 4 = true /\ e = [ERead b 0x02 [c] (Ok tt); EWrite b 0x02 [x10] (Ok tt)]) \/
  (exists c c', N.testbit (b2n c) 4 = false /\ N.testbit (b2n c') 3 = false /\ e = [ERead b 0x02 [c] (Ok tt); ERead b 0x02 [c'] (Ok tt)]).
Lemma bit4 x : negb (N.land (b2n x) 16 =? 0) = N.testbit (b2n x) 4.
Proof. destruct x; reflexivity. Qed.
Lemma bit3 x : negb (N.land (b2n x) 8 =? 0) = N.testbit (b2n x) 3.
Proof. destruct x; reflexivity. Qed.
Lemma flush_done u : forall fuel tr r, exec (udp_flush_loop fuel u) tr (Done (Ok r)) -> exists l q q' fin,
  tr = pairs (register (u_socket u)) (l ++ [(q, q')]) ++ fin /\ Forall (fun a => from_be (fst a) <> from_be (snd a) /\ two a) l /\ two (q, q') /\ from_be q = from_be q' /\
  settled (register (u_socket u)) fin.
Proof.
  induction fuel as [|fuel IH]; intros tr r X; cbn [udp_flush_loop] in X; [inversion X|].
  apply exec_bind_done in X as (t1 & y & t2 & -> & X1 & X). unfold udp_try_flush_tx, get_tx_read_pointer, get_tx_write_pointer in X1.
  destruct y as [[]|[|e]]; [apply ret_on in X as [-> _]| |apply ret_on in X as [_ X]; discriminate X].
  - rd X1 q L. rd X1 q' L'. destruct (from_be q =? from_be q') eqn:E; [|apply ret_on in X1 as [_ X1]; discriminate X1]. apply N.eqb_eq in E.
    unfold has_interrupt, reset_interrupt in X1. rd X1 d Ld. apply Waits.one_byte in Ld as (c & ->). change (byte0 [c]) with c in X1.
    change (interrupt_u8 InSendOk) with 16 in X1. rewrite bit4 in X1.
    destruct (N.testbit (b2n c) 4) eqn:B; cbv iota in X1.
    + wr X1. apply ret_on in X1 as [-> _]. exists [], q, q'. eexists. split; [rewrite app_nil_r; reflexivity|]. split; [constructor|]. split; [split; assumption|]. split; [exact E|]. left. exists c. split; [exact B|reflexivity].
    + rd X1 d Ld. apply Waits.one_byte in Ld as (c' & ->). change (byte0 [c']) with c' in X1.
      change (interrupt_u8 InTimeout) with 8 in X1. rewrite bit3 in X1.
      destruct (N.testbit (b2n c') 3) eqn:B'; cbn [negb] in X1.
      * wr X1. apply ret_on in X1 as [_ X1]. discriminate X1.
      * apply ret_on in X1 as [-> _]. exists [], q, q'. eexists. split; [rewrite app_nil_r; reflexivity|]. split; [constructor|]. split; [split; assumption|]. split; [exact E|]. right. exists c, c'. split; [exact B|]. split; [exact B'|reflexivity].
  - assert (Y : exists q q', t1 = [ERead (register (u_socket u)) 0x22 q (Ok tt); ERead (register (u_socket u)) 0x24 q' (Ok tt)] /\ from_be q <> from_be q' /\ two (q, q')).
    { clear X IH. rd X1 q L. rd X1 q' L'. exists q, q'. destruct (from_be q =? from_be q') eqn:E.
      - exfalso. unfold has_interrupt, reset_interrupt in X1. rd X1 d Ld. destruct (negb _) in X1; [wr X1; apply ret_on in X1 as [_ X1]; discriminate X1|].
        rd X1 d' Ld'. destruct (negb _) in X1; [wr X1|]; apply ret_on in X1 as [_ X1]; discriminate X1.
      - apply ret_on in X1 as [-> _]. split; [reflexivity|]. split; [now apply N.eqb_neq|split; assumption]. }
    destruct Y as (q & q' & -> & Nq). destruct (IH _ _ X) as (l & p & p' & fin & -> & H1 & H2 & H3 & H4). exists ((q, q') :: l), p, p', fin. split; [reflexivity|].
    split; [constructor; [exact Nq|exact H1]|auto].
Qed.
Inductive sending (b t : N) : N -> list byte -> list event -> Prop :=
| all_sent cap : sending b t cap [] []
| one_more cap d d1 d2 f p l q q' fin f' rest : d <> [] -> d = d1 ++ d2 -> length f = 2%nat -> length p = 2%nat -> length f' = 2%nat -> from_be f <> 0 ->
    len d1 = N.min (N.min cap (len d)) (from_be f) -> Forall (fun a => from_be (fst a) <> from_be (snd a) /\ two a) l -> two (q, q') -> from_be q = from_be q' -> settled b fin ->
    sending b t (from_be f') d2 rest ->
    sending b t cap d ([ERead b 0x03 [x22] (Ok tt); ERead b 0x20 f (Ok tt); ERead b 0x24 p (Ok tt); EWrite t (from_be p) d1 (Ok tt);
      EWrite b 0x24 (to_be (wadd16 (from_be p) (as_u16 (len d1)))) (Ok tt); EWrite b 0x01 [x20] (Ok tt)] ++ pairs b (l ++ [(q, q')]) ++ fin ++ [ERead b 0x20 f' (Ok tt)] ++ rest).
Lemma gate_udp st a : udp_status_gate st = Ok a -> st = x22.
Proof. unfold udp_status_gate. destruct st; vm_compute; intros E; try discriminate E; reflexivity. Qed.
Lemma batch_done fuel u d tr n : exec (udp_socket_send fuel u d) tr (Done (Ok n)) -> exists f p l q q' fin, length f = 2%nat /\ length p = 2%nat /\ from_be f <> 0 /\
  n = N.min (len d) (from_be f) /\ Forall (fun a => from_be (fst a) <> from_be (snd a) /\ two a) l /\ two (q, q') /\ from_be q = from_be q' /\ settled (register (u_socket u)) fin /\
  tr = [ERead (register (u_socket u)) 0x03 [x22] (Ok tt); ERead (register (u_socket u)) 0x20 f (Ok tt); ERead (register (u_socket u)) 0x24 p (Ok tt); EWrite (tx_buffer (u_socket u)) (from_be p) (take n d) (Ok tt);
      EWrite (register (u_socket u)) 0x24 (to_be (wadd16 (from_be p) (as_u16 n))) (Ok tt); EWrite (register (u_socket u)) 0x01 [x20] (Ok tt)] ++ pairs (register (u_socket u)) (l ++ [(q, q')]) ++ fin.
Proof.
  intros X. unfold udp_socket_send, get_status, get_tx_free_size in X. rd X w L. apply Waits.one_byte in L as (st & ->). change (byte0 [st]) with st in X.
  destruct (udp_status_gate st) as [a|e] eqn:G; [|apply ret_on in X as [_ X]; discriminate X]. apply gate_udp in G. subst st.
  destruct (u_dest u); [|apply ret_on in X as [_ X]; discriminate X]. rd X f Lf. destruct (from_be f =? 0) eqn:E0; [apply ret_on in X as [_ X]; discriminate X|]. apply N.eqb_neq in E0.
  assert (K : exists d1, d1 = take (N.min (len d) (from_be f)) d /\ len d1 = N.min (len d) (from_be f) /\ exec (udp_send_data fuel u d1) x0 (Done (Ok n))).
  { destruct (len d <? from_be f) eqn:E.
    - apply N.ltb_lt in E. exists d. rewrite N.min_l by lia. split; [unfold take, len; rewrite Nnat.Nat2N.id; now rewrite firstn_all|]. split; [reflexivity|exact X].
    - apply N.ltb_ge in E. rewrite N.min_r by lia. unfold slice_to in X. destruct (from_be f <=? len d); [|inversion X]. exists (take (from_be f) d). split; [reflexivity|]. split; [|exact X].
      unfold take, len in *. rewrite firstn_length. lia. }
  destruct K as (d1 & Ed & Ld & Y). clear X. unfold udp_send_data, get_tx_write_pointer, set_tx_write_pointer, udp_block_send_command, command in Y.
  rd Y p Lp. wr Y. wr Y. apply try_on in Y as (t1 & [] & t2 & -> & Y1 & Y); [|discriminate]. apply ret_on in Y as [-> [= ->]]. wr Y1.
  destruct (flush_done _ _ _ _ Y1) as (l & q & q' & fin & -> & H1 & H2 & H3 & H4). exists f, p, l, q, q', fin. rewrite app_nil_r, Ld.
  split; [exact Lf|]. split; [exact Lp|]. split; [exact E0|]. split; [reflexivity|]. split; [exact H1|]. split; [exact H2|]. split; [exact H3|]. split; [exact H4|]. rewrite <- Ed. reflexivity.
Qed.
Lemma loop_done fuel u d : forall outer cap total tr r, total <= len d -> exec (udp_send_loop outer fuel u d cap total) tr (Done (Ok r)) ->
  sending (register (u_socket u)) (tx_buffer (u_socket u)) cap (drop total d) tr.
Proof.
  induction outer as [|outer IH]; intros cap total tr r Ht X; cbn [udp_send_loop] in X; destruct (total =? len d) eqn:E.
  1,3: apply N.eqb_eq in E; apply ret_on in X as [-> _]; subst total; unfold drop, len; rewrite Nnat.Nat2N.id, skipn_all; constructor.
  - inversion X.
  - apply N.eqb_neq in E. unfold slice_from, slice_to in X. destruct (total <=? len d); [|inversion X]. destruct (_ <=? _) in X; [|inversion X].
    apply try_on in X as (t1 & n & t2 & -> & X1 & X); [|discriminate]. unfold get_tx_free_size in X. rd X f' Lf'.
    destruct (batch_done _ _ _ _ _ X1) as (f & p & l & q & q' & fin & Lf & Lp & F0 & En & H1 & H2 & H3 & H4 & ->).
    set (rem := drop total d) in *. assert (Lr : len rem = len d - total) by (subst rem; unfold drop, len in *; rewrite skipn_length; lia).
    assert (Lt : len (take (N.min cap (len rem)) rem) = N.min cap (len rem)) by (unfold take, len in *; rewrite firstn_length; lia).
    rewrite Lt in En. assert (Tt : take n (take (N.min cap (len rem)) rem) = take n rem) by (unfold take; rewrite firstn_firstn; f_equal; lia).
    assert (Dd : drop (total + n) d = drop n rem). { subst rem. now rewrite drop_drop. }
    apply IH in X; [|lia]. rewrite Dd in X. rewrite Tt. rewrite <- !app_assoc.
    assert (Ln : len (take n rem) = n) by (unfold take, len in *; rewrite firstn_length; lia).
    pose proof (one_more (register (u_socket u)) (tx_buffer (u_socket u)) cap rem (take n rem) (drop n rem) f p l q q' fin f' x) as Z. rewrite Ln in Z. apply Z; auto.
    + intros Z0. rewrite Z0 in Lr. change (len []) with 0 in Lr. lia.
    + unfold take, drop. symmetry. apply firstn_skipn.
Qed.
Lemma udp_send_done fuel u d tr r : exec (udp_send_all fuel u d) tr (Done (Ok r)) -> exists f rest, length f = 2%nat /\ from_be f <> 0 /\
  tr = [ERead (register (u_socket u)) 0x03 [x22] (Ok tt); ERead (register (u_socket u)) 0x20 f (Ok tt)] ++ rest /\
  sending (register (u_socket u)) (tx_buffer (u_socket u)) (from_be f) d rest.
Proof.
  intros X. unfold udp_send_all, get_status, get_tx_free_size in X. rd X w L. apply Waits.one_byte in L as (st & ->). change (byte0 [st]) with st in X.
  destruct (udp_status_gate st) as [a|e] eqn:G; [|apply ret_on in X as [_ X]; discriminate X]. apply gate_udp in G. subst st.
  destruct (u_dest u); [|apply ret_on in X as [_ X]; discriminate X]. rd X f Lf. destruct (from_be f =? 0) eqn:E0; [apply ret_on in X as [_ X]; discriminate X|]. apply N.eqb_neq in E0.
  exists f, x0. split; [exact Lf|]. split; [exact E0|]. split; [reflexivity|]. apply (loop_done _ _ _ _ _ 0 _ _) in X; [exact X|lia].
Qed.

(** ** UDP receive *)
Lemma udp_receive_done fuel u d tr d' n a : exec (udp_receive fuel u d) tr (Done (d', Ok (n, a))) ->
  exists f l w p h got, Forall (fun q => fst q <> snd q /\ two q) l /\ length w = 2%nat /\ from_be w <> 0 /\ d <> [] /\ length p = 2%nat /\ length h = 8%nat /\
  N.testbit (b2n f) 2 = true /\ n = N.max (N.min (from_be w) (len d)) (from_be (skipn 6 h)) /\ len got = n /\ n <= len d /\ d' = got ++ skipn (N.to_nat n) d /\
  a = V4 (Addr4 (Ip4 (nth 0 h x00) (nth 1 h x00) (nth 2 h x00) (nth 3 h x00)) (from_be (firstn 2 (skipn 4 h)))) /\
  tr = [ERead (register (u_socket u)) 0x03 [x22] (Ok tt); ERead (register (u_socket u)) 0x02 [f] (Ok tt)] ++ sized (register (u_socket u)) (l ++ [(w, w)]) ++
     [ERead (register (u_socket u)) 0x28 p (Ok tt); ERead (rx_buffer (u_socket u)) (from_be p) h (Ok tt); ERead (rx_buffer (u_socket u)) ((from_be p + 8) mod 65536) got (Ok tt);
      EWrite (register (u_socket u)) 0x28 (to_be ((from_be p + from_be w) mod 65536)) (Ok tt); EWrite (register (u_socket u)) 0x01 [x40] (Ok tt);
      EWrite (register (u_socket u)) 0x02 [x04] (Ok tt)].
Proof.
  intros X. unfold udp_receive in X. apply exec_bind_done in X as (t1 & r & t2 & -> & X & Y). apply ret_on in Y as [-> Y]. injection Y as -> Er. rewrite app_nil_r.
  destruct r as [d' [[n' hd]|e]]; [|discriminate Er]. cbn [fst snd] in *. injection Er as -> ->.
  unfold udp_socket_receive, get_status in X. rd X w0 L. apply Waits.one_byte in L as (st & ->). change (byte0 [st]) with st in X.
  destruct (udp_status_gate st) as [a|e] eqn:G; [|apply ret_on in X as [_ X]; discriminate X]. apply gate_udp in G. subst st.
  unfold has_interrupt in X. rd X fl L. apply Waits.one_byte in L as (f & ->). change (byte0 [f]) with f in X. change (interrupt_u8 InReceive) with 4 in X. rewrite land_bit in X.
  destruct (N.testbit (b2n f) 2) eqn:B; cbn [negb] in X; [|apply ret_on in X as [_ X]; discriminate X].
  apply try_on in X as (t1 & sz & t2 & -> & X1 & X); [|discriminate]. apply size_done in X1 as (l & w & D & Lw & -> & ->).
  destruct (from_be w =? 0) eqn:W0; [apply ret_on in X as [_ X]; discriminate X|]. destruct (len d =? 0) eqn:D0; [apply ret_on in X as [_ X]; discriminate X|].
  apply N.eqb_neq in W0, D0. unfold get_rx_read_pointer, set_rx_read_pointer, command, reset_interrupt in X. rd X p Lp. rd X h Lh.
  assert (Eh : h_len (udp_header_from h) = from_be (skipn 6 h)) by (destruct h as [|h0 [|h1 [|h2 [|h3 [|h4 [|h5 [|h6 [|h7 [|]]]]]]]]]; try discriminate Lh; reflexivity).
  rewrite Eh in X. set (m := N.max (N.min (from_be w) (len d)) (from_be (skipn 6 h))) in *. unfold slice_to in X. destruct (m <=? len d) eqn:M; [|inversion X]. apply N.leb_le in M.
  apply exec_bind_done in X as (t3 & [got r] & t4 & -> & X1 & X). cbn in X1. inversion X1; subst. match goal with Y : exec (Ret _) _ _ |- _ => apply ret_on in Y as [-> Y]; injection Y as -> -> end. cbn [fst snd] in X.
  match goal with Y : exec (match ?r with _ => _ end) _ _ |- _ => destruct r as [[]|x] end; [|apply ret_on in X as [_ X]; discriminate X].
  do 3 wr X. apply ret_on in X as [-> X]. injection X as -> -> ->. match goal with Y : length ?g = length (take m d) |- _ => rename Y into Lg; exists f, l, w, p, h, g end.
  pose proof (from_be_lt w Lw) as Bw. unfold as_u16. rewrite (N.mod_small (from_be w)) by exact Bw.
  split; [exact D|]. split; [exact Lw|]. split; [exact W0|]. split; [intros ->; now apply D0|]. split; [exact Lp|]. split; [exact Lh|]. split; [exact B|]. split; [reflexivity|].
  split; [unfold len, take in *; rewrite firstn_length in Lg; lia|]. split; [exact M|]. split; [reflexivity|]. split; [|reflexivity].
  destruct h as [|h0 [|h1 [|h2 [|h3 [|h4 [|h5 [|h6 [|h7 [|]]]]]]]]]; try discriminate Lh; reflexivity.
Qed.
