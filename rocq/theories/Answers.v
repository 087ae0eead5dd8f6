(** What a computation does is a function of what the bus answers; and executions built from the
    answers. *)
From Verif Require Export Transcript.
From Verif Require Import Waits CallFacts ValueFacts.
From Coq Require Import Lia.

(** What the driver asks of the bus. *)
Inductive question := Reading (b a : N) (n : nat) | Writing (b a : N) (d : list byte).
Definition asked (e : event) : question :=
  match e with ERead b a got _ => Reading b a (length got) | EWrite b a d _ => Writing b a d end.

Lemma determined {A} (p : prog A) t1 o1 : exec p t1 o1 -> o1 <> Cut -> forall t2 o2, exec p t2 o2 -> o2 <> Cut ->
  (t1 = t2 /\ o1 = o2) \/ exists pre e1 e2 r1 r2, t1 = pre ++ e1 :: r1 /\ t2 = pre ++ e2 :: r2 /\ e1 <> e2 /\ asked e1 = asked e2.
Proof.
  induction 1 as [p|a|w| |b a buf k got r tr o L X IH|b a d k r tr o X IH]; intros N1 t2 o2 Y N2; [congruence| | | | |].
  1-3: inversion Y; subst; [congruence|auto].
  - inversion Y as [| | | |? ? ? ? got' r' tr' ? L' Y'|]; subst; [congruence|].
    destruct (list_eq_dec Byte.byte_eq_dec got got') as [<-|Ng].
    + assert (D : {r = r'} + {r <> r'}) by (repeat decide equality). destruct D as [<-|Nr].
      * destruct (IH N1 _ _ Y' N2) as [[-> ->]|(pre & e1 & e2 & r1 & r2 & -> & -> & Ne & Q)]; [auto|]. right. exists (ERead b a got r :: pre), e1, e2, r1, r2. auto.
      * right. exists [], (ERead b a got r), (ERead b a got r'), tr, tr'. repeat split. congruence.
    + right. exists [], (ERead b a got r), (ERead b a got' r'), tr, tr'. split; [reflexivity|]. split; [reflexivity|]. split; [congruence|]. cbn [asked]. congruence.
  - inversion Y as [| | | | |? ? ? ? r' tr' ? Y']; subst; [congruence|]. assert (D : {r = r'} + {r <> r'}) by (repeat decide equality). destruct D as [<-|Nr].
    + destruct (IH N1 _ _ Y' N2) as [[-> ->]|(pre & e1 & e2 & r1 & r2 & -> & -> & Ne & Q)]; [auto|]. right. exists (EWrite b a d r :: pre), e1, e2, r1, r2. auto.
    + right. exists [], (EWrite b a d r), (EWrite b a d r'), tr, tr'. repeat split. congruence.
Qed.

(** A bus that answers as it likes, by all that happened before. *)
Record any_bus := { on_read : list event -> N -> N -> nat -> list byte * res unit berr; on_write : list event -> N -> N -> list byte -> res unit berr;
                    fits : forall l b a n, length (fst (on_read l b a n)) = n }.
Definition given (B : any_bus) (l : list event) (e : event) : Prop :=
  match e with ERead b a got r => (got, r) = on_read B l b a (length got) | EWrite b a d r => r = on_write B l b a d end.
Definition answered (B : any_bus) (before tr : list event) : Prop := forall pre e post, tr = pre ++ e :: post -> given B (before ++ pre) e.
Lemma answered_nil B l : answered B l [].
Proof. intros [|] ? ? H; discriminate H. Qed.
Lemma answered_cons B l e tr : given B l e -> answered B (l ++ [e]) tr -> answered B l (e :: tr).
Proof.
  intros G H [|e' pre] e'' post E; injection E as <- E; [now rewrite app_nil_r|]. specialize (H pre e'' post E). rewrite <- app_assoc in H. exact H.
Qed.
Lemma one_way {A} (B : any_bus) (p : prog A) : forall before, exists tr o, exec p tr o /\ o <> Cut /\ answered B before tr.
Proof.
  induction p as [a|w| |b a buf k IH|b a d k IH]; intros before.
  1-3: do 2 eexists; (split; [constructor|]); (split; [discriminate|apply answered_nil]).
  - destruct (on_read B before b a (length buf)) as [got r] eqn:E. pose proof (fits B before b a (length buf)) as L. rewrite E in L. cbn [fst] in L.
    destruct (IH (got, r) (before ++ [ERead b a got r])) as (tr & o & X & N & H). exists (ERead b a got r :: tr), o. split; [now constructor|]. split; [exact N|].
    apply answered_cons; [|exact H]. cbn [given]. now rewrite L, E.
  - destruct (IH (on_write B before b a d) (before ++ [EWrite b a d (on_write B before b a d)])) as (tr & o & X & N & H).
    exists (EWrite b a d (on_write B before b a d) :: tr), o. split; [now constructor|]. split; [exact N|]. apply answered_cons; [reflexivity|exact H].
Qed.
Lemma same_way {A} (B : any_bus) (p : prog A) before t1 o1 t2 o2 : exec p t1 o1 -> o1 <> Cut -> answered B before t1 -> exec p t2 o2 -> o2 <> Cut -> answered B before t2 ->
  t1 = t2 /\ o1 = o2.
Proof.
  intros X1 N1 A1 X2 N2 A2. destruct (determined p t1 o1 X1 N1 t2 o2 X2 N2) as [H|(pre & e1 & e2 & r1 & r2 & E1 & E2 & Ne & Q)]; [exact H|]. elim Ne.
  pose proof (A1 _ _ _ E1) as G1. pose proof (A2 _ _ _ E2) as G2. destruct e1, e2; cbn [asked] in Q; try discriminate Q; injection Q; intros; subst; cbn [given] in *; congruence.
Qed.

(** ** Building an execution one bus call at a time *)
Lemma to_read {A R} b a n (h : berr -> R) (conv : list byte -> A) (k : A -> prog R) d w o : length d = n -> exec (k (conv d)) w o ->
  exec (try_ (try_ (read_reg b a n) Err (fun d => Ret (Ok (conv d)))) h k) (ERead b a d (Ok tt) :: w) o.
Proof. intros L X. cbn. apply exec_read; [unfold zeros; now rewrite repeat_length|exact X]. Qed.
Lemma to_plain {R} b a n (h : berr -> R) (k : list byte -> prog R) d w o : length d = n -> exec (k d) w o ->
  exec (try_ (read_reg b a n) h k) (ERead b a d (Ok tt) :: w) o.
Proof. intros L X. cbn. apply exec_read; [unfold zeros; now rewrite repeat_length|exact X]. Qed.
Lemma to_write {R} b a d (h : berr -> R) (k : unit -> prog R) w o : exec (k tt) w o -> exec (try_ (write_frame b a d) h k) (EWrite b a d (Ok tt) :: w) o.
Proof. intros X. cbn. now constructor. Qed.
Lemma to_try {A E R} (p : prog (res A E)) (h : E -> R) k t1 a t2 o : exec p t1 (Done (Ok a)) -> exec (k a) t2 o -> exec (try_ p h k) (t1 ++ t2) o.
Proof. intros X Y. exact (exec_bind_intro _ _ _ _ _ _ X Y). Qed.
Ltac gr := first [apply to_read; [reflexivity || assumption|] | apply to_plain; [reflexivity || assumption|]].
Ltac gw := apply to_write.

Lemma sendok_make s c : N.testbit (b2n c) 4 = true -> forall l, (forall c', In c' l -> N.testbit (b2n c') 4 = false) -> forall fuel, (length l < fuel)%nat ->
  exec (wait_send_ok fuel s) (map (fun c => ERead (register s) 0x02 [c] (Ok tt)) (l ++ [c])) (Done (Ok tt)).
Proof.
  intros B. induction l as [|c0 l IH]; intros N [|fuel] L; cbn [length] in L; try lia; cbn [wait_send_ok List.app map]; unfold has_interrupt; gr;
    change (byte0 [c]) with c || change (byte0 [c0]) with c0; change (interrupt_u8 InSendOk) with 16; rewrite bit4.
  - rewrite B. constructor.
  - rewrite (N c0 (or_introl eq_refl)). apply IH; [intros c' H; apply N; now right|lia].
Qed.
Lemma size_make s w : length w = 2%nat -> forall l, Forall (fun q => fst q <> snd q /\ two q) l -> forall fuel, (length l < fuel)%nat ->
  exec (get_receive_size fuel s) (flat_map (fun q => [ERead (register s) 0x26 (fst q) (Ok tt); ERead (register s) 0x26 (snd q) (Ok tt)]) (l ++ [(w, w)])) (Done (Ok (from_be w))).
Proof.
  intros Lw. induction l as [|[q q'] l IH]; intros F [|fuel] L; cbn [length] in L; try lia; cbn [get_receive_size List.app flat_map fst snd].
  - gr. gr. rewrite (proj2 (bytes_eqb_eq w w) eq_refl). constructor.
  - inversion F as [|? ? (N & L1 & L2) F']; subst. cbn [fst snd] in *. gr. gr. destruct (bytes_eqb q q') eqn:E; [apply bytes_eqb_eq in E; contradiction|]. apply IH; [exact F'|lia].
Qed.

Lemma to_conn {R} t (h : terr -> R) k w o : exec (k true) w o -> exec (try_ (tcp_is_connected t) h k) (ERead (register (t_socket t)) 0x03 [x17] (Ok tt) :: w) o.
Proof.
  intros X. change (?e :: w) with ([e] ++ w). apply to_try with (a := true); [|exact X]. unfold tcp_is_connected, get_status. gr. constructor.
Qed.
Lemma tcp_send_make t d f p l c : length f = 2%nat -> length p = 2%nat -> N.testbit (b2n c) 4 = true -> (forall c', In c' l -> N.testbit (b2n c') 4 = false) ->
  forall fuel, (length l < fuel)%nat -> let n := N.min (len d) (from_be f) in
  exec (tcp_send fuel t d)
    ([ERead (register (t_socket t)) 0x03 [x17] (Ok tt); ERead (register (t_socket t)) 0x20 f (Ok tt);
        ERead (register (t_socket t)) 0x24 p (Ok tt); EWrite (tx_buffer (t_socket t)) (from_be p) (firstn (N.to_nat n) d) (Ok tt);
        EWrite (register (t_socket t)) 0x24 (to_be (wadd16 (from_be p) (as_u16 n))) (Ok tt); EWrite (register (t_socket t)) 0x01 [x20] (Ok tt)] ++
       map (fun c => ERead (register (t_socket t)) 0x02 [c] (Ok tt)) (l ++ [c]) ++ [EWrite (register (t_socket t)) 0x02 [x10] (Ok tt)]) (Done (Ok n)).
Proof.
  intros Lf Lp B N fuel Hf n. unfold tcp_send. rewrite <- (app_nil_r (_ ++ _)). apply to_try with (a := n); [|constructor].
  unfold tcp_socket_send. cbn [List.app]. apply to_conn.
  cbn [negb]. unfold get_tx_free_size. gr.
  assert (X : forall d0, len d0 = n -> d0 = firstn (N.to_nat n) d -> exec (tcp_send_data fuel t d0)
    (ERead (register (t_socket t)) 0x24 p (Ok tt) :: EWrite (tx_buffer (t_socket t)) (from_be p) (firstn (N.to_nat n) d) (Ok tt) ::
        EWrite (register (t_socket t)) 0x24 (to_be (wadd16 (from_be p) (as_u16 n))) (Ok tt) :: EWrite (register (t_socket t)) 0x01 [x20] (Ok tt) ::
       map (fun c => ERead (register (t_socket t)) 0x02 [c] (Ok tt)) (l ++ [c]) ++ [EWrite (register (t_socket t)) 0x02 [x10] (Ok tt)]) (Done (Ok n))).
  { intros d0 L0 E0. rewrite <- E0, <- L0. unfold tcp_send_data, get_tx_write_pointer, set_tx_write_pointer, command, reset_interrupt. gr. gw. gw. gw.
    apply to_try with (a := tt); [now apply sendok_make|]. gw. constructor. }
  destruct (len d <? from_be f) eqn:F.
  - apply N.ltb_lt in F. assert (En : n = len d) by (subst n; lia). apply X; [now rewrite En|]. rewrite En. unfold len. now rewrite Nnat.Nat2N.id, firstn_all.
  - apply N.ltb_ge in F. assert (En : n = from_be f) by (subst n; lia). unfold slice_to. destruct (from_be f <=? len d) eqn:G; [|apply N.leb_gt in G; lia]. apply X.
    + rewrite En. unfold len, take in *. rewrite firstn_length. lia.
    + now rewrite En.
Qed.

Lemma tcp_receive_none t d f fuel : N.testbit (b2n f) 2 = false ->
  exec (tcp_receive fuel t d) [ERead (register (t_socket t)) 0x03 [x17] (Ok tt); ERead (register (t_socket t)) 0x02 [f] (Ok tt)] (Done (d, Ok 0)).
Proof.
  intros B. unfold tcp_receive. rewrite <- (app_nil_r [_; _]). apply exec_bind_intro with (a := (d, Ok 0)); [|constructor].
  unfold tcp_socket_receive. apply to_conn. cbn [negb]. unfold has_interrupt. gr. change (byte0 [f]) with f. change (interrupt_u8 InReceive) with 4. rewrite land_bit, B. constructor.
Qed.
Lemma tcp_receive_make t d f l w p got : N.testbit (b2n f) 2 = true ->
  Forall (fun q => fst q <> snd q /\ two q) l -> length w = 2%nat -> length p = 2%nat ->
  let n := N.min (len d) (from_be w) in len got = n -> forall fuel, (length l < fuel)%nat ->
  exec (tcp_receive fuel t d)
    ([ERead (register (t_socket t)) 0x03 [x17] (Ok tt); ERead (register (t_socket t)) 0x02 [f] (Ok tt)] ++
     flat_map (fun q => [ERead (register (t_socket t)) 0x26 (fst q) (Ok tt); ERead (register (t_socket t)) 0x26 (snd q) (Ok tt)]) (l ++ [(w, w)]) ++
     [ERead (register (t_socket t)) 0x28 p (Ok tt); ERead (rx_buffer (t_socket t)) (from_be p) got (Ok tt);
      EWrite (register (t_socket t)) 0x28 (to_be (wadd16 (from_be p) (as_u16 n))) (Ok tt); EWrite (register (t_socket t)) 0x01 [x40] (Ok tt);
      EWrite (register (t_socket t)) 0x02 [x04] (Ok tt)]) (Done (got ++ skipn (N.to_nat n) d, Ok n)).
Proof.
  intros B F Lw Lp n Lg fuel Hf. unfold tcp_receive. rewrite <- (app_nil_r (_ ++ _)). apply exec_bind_intro with (a := (got ++ skipn (N.to_nat n) d, Ok n)); [|constructor].
  unfold tcp_socket_receive. cbn [List.app]. apply to_conn. cbn [negb]. unfold has_interrupt. gr. change (byte0 [f]) with f. change (interrupt_u8 InReceive) with 4. rewrite land_bit, B. cbn [negb].
  apply to_try with (a := from_be w); [now apply size_make|].
  assert (Hn : n <= len d) by (subst n; lia).
  assert (X : exec (tcp_receive_data t n d) [ERead (register (t_socket t)) 0x28 p (Ok tt); ERead (rx_buffer (t_socket t)) (from_be p) got (Ok tt);
      EWrite (register (t_socket t)) 0x28 (to_be (wadd16 (from_be p) (as_u16 n))) (Ok tt); EWrite (register (t_socket t)) 0x01 [x40] (Ok tt);
      EWrite (register (t_socket t)) 0x02 [x04] (Ok tt)] (Done (got ++ skipn (N.to_nat n) d, Ok n))).
  { assert (Lt : len (take n d) = n) by (unfold len, take in *; rewrite firstn_length; lia).
    unfold tcp_receive_data, get_rx_read_pointer, set_rx_read_pointer, command, reset_interrupt. rewrite Lt. gr.
    change (?e :: ?e1 :: ?r) with ([e] ++ e1 :: r). apply exec_bind_intro with (a := (got, Ok tt)).
    - unfold read_into. apply exec_read; [unfold len in *; lia|constructor].
    - cbn [fst snd]. gw. gw. gw. constructor. }
  destruct (len d <? from_be w) eqn:E; [apply N.ltb_lt in E|apply N.ltb_ge in E].
  - assert (En : n = len d) by (subst n; lia). rewrite <- En. exact X.
  - assert (En : n = from_be w) by (subst n; lia). destruct (from_be w <=? len d) eqn:G; [|apply N.leb_gt in G; lia]. rewrite <- En. exact X.
Qed.

Lemma again_make t : exec (try a <- tcp_socket_close t else Err ;; tcp_reopen t) (again (register (t_socket t))) (Done (Ok tt)).
Proof.
  unfold again. change [?a; ?b; ?c; ?d; ?e; ?f; ?g] with ([a; b] ++ [c; d; e; f; g]). apply to_try with (a := tt).
  - unfold tcp_socket_close, set_mode, command. gw. gw. constructor.
  - unfold tcp_reopen, set_mode, command, reset_interrupt, set_interrupt_mask. do 5 gw. constructor.
Qed.
Lemma connect_wait_make t c rest : (c = x17 /\ rest = [] \/ c = x00 /\ rest = again (register (t_socket t))) -> forall l, ~ In x17 l -> ~ In x00 l -> forall fuel, (length l < fuel)%nat ->
  exec (tcp_connect_wait fuel t) (map (fun c => ERead (register (t_socket t)) 0x03 [c] (Ok tt)) (l ++ [c]) ++ rest) (Done (Ok tt)).
Proof.
  intros Hc. induction l as [|c0 l IH]; intros N1 N0 [|fuel] L; cbn [length] in L; try lia; cbn [tcp_connect_wait List.app map]; unfold get_status; gr.
  - change (byte0 [c]) with c. destruct Hc as [[-> ->]|[-> ->]].
    + change (status_try_from x17) with (Some StEstablished). constructor.
    + change (status_try_from x00) with (Some StClosed). apply again_make.
  - change (byte0 [c0]) with c0. assert (Y : exec (tcp_connect_wait fuel t) (map (fun c => ERead (register (t_socket t)) 0x03 [c] (Ok tt)) (l ++ [c]) ++ rest) (Done (Ok tt))).
    { apply IH; [intros H; apply N1; now right|intros H; apply N0; now right|lia]. }
    assert (c0 <> x17) as D1 by (intros ->; apply N1; now left). assert (c0 <> x00) as D0 by (intros ->; apply N0; now left).
    destruct (status_try_from c0) as [[]|] eqn:E; try exact Y; exfalso; clear - E D1 D0; destruct c0; try discriminate E; auto.
Qed.
Lemma connect_make t r st mid l c rest :
  (st = x13 /\ mid = [] \/ st <> x13 /\ st <> x22 /\ st <> x42 /\ (exists s, status_try_from st = Some s) /\ mid = again (register (t_socket t))) ->
  ~ In x17 l -> ~ In x00 l -> (c = x17 /\ rest = [] \/ c = x00 /\ rest = again (register (t_socket t))) -> forall fuel, (length l < fuel)%nat ->
  exec (tcp_connect fuel t (V4 r)) (opening (register (t_socket t)) (to_be (49849 + index (t_socket t))) ++ [ERead (register (t_socket t)) 0x03 [st] (Ok tt)] ++ mid ++
       [EWrite (register (t_socket t)) 0x0c (octets (a_ip r)) (Ok tt); EWrite (register (t_socket t)) 0x10 (to_be (a_port r)) (Ok tt);
        EWrite (register (t_socket t)) 0x01 [x04] (Ok tt)] ++ map (fun c => ERead (register (t_socket t)) 0x03 [c] (Ok tt)) (l ++ [c]) ++ rest) (Done (Ok tt)).
Proof.
  intros Hm N1 N0 Hc fuel L. unfold tcp_connect. apply to_try with (a := tt).
  { unfold tcp_open, opening, set_mode, command, reset_interrupt, set_interrupt_mask, set_source_port. do 6 gw. constructor. }
  rewrite <- (app_nil_r (_ ++ _)). apply to_try with (a := tt); [|constructor]. unfold tcp_socket_connect, get_status. cbn [List.app]. gr. change (byte0 [st]) with st.
  assert (X : exec (tcp_do_connect fuel t r) ([EWrite (register (t_socket t)) 0x0c (octets (a_ip r)) (Ok tt); EWrite (register (t_socket t)) 0x10 (to_be (a_port r)) (Ok tt);
        EWrite (register (t_socket t)) 0x01 [x04] (Ok tt)] ++ map (fun c => ERead (register (t_socket t)) 0x03 [c] (Ok tt)) (l ++ [c]) ++ rest) (Done (Ok tt))).
  { unfold tcp_do_connect, set_destination_ip, set_destination_port, command. cbn [List.app]. do 3 gw. now apply connect_wait_make. }
  destruct Hm as [[-> ->]|(M1 & M2 & M3 & (s & Es) & ->)].
  - change (status_try_from x13) with (Some StInit). exact X.
  - assert (Y : exec (try a <- tcp_socket_close t else Err ;; try b <- tcp_reopen t else Err ;; tcp_do_connect fuel t r)
      (again (register (t_socket t)) ++ ([EWrite (register (t_socket t)) 0x0c (octets (a_ip r)) (Ok tt); EWrite (register (t_socket t)) 0x10 (to_be (a_port r)) (Ok tt);
        EWrite (register (t_socket t)) 0x01 [x04] (Ok tt)] ++ map (fun c => ERead (register (t_socket t)) 0x03 [c] (Ok tt)) (l ++ [c]) ++ rest)) (Done (Ok tt))).
    { unfold again. change [?a; ?b; ?c; ?d; ?e; ?f; ?g] with ([a; b] ++ [c; d; e; f; g]). rewrite <- (app_assoc [_; _] [_; _; _; _; _]). apply to_try with (a := tt).
      - unfold tcp_socket_close, set_mode, command. gw. gw. constructor.
      - apply to_try with (a := tt); [|exact X]. unfold tcp_reopen, set_mode, command, reset_interrupt, set_interrupt_mask. do 5 gw. constructor. }
    rewrite Es. destruct s; try exact Y; exfalso; clear - Es M1 M2 M3; destruct st; try discriminate Es; auto.
Qed.

Lemma raw_write_make r d f p l c : length f = 2%nat -> length p = 2%nat -> N.testbit (b2n c) 4 = true -> (forall c', In c' l -> N.testbit (b2n c') 4 = false) ->
  forall fuel, (length l < fuel)%nat -> let n := if len d <=? from_be f then len d else 0 in
  exec (raw_write_frame fuel r d)
    ([EWrite (register (raw_socket r)) 0x02 [x10] (Ok tt); ERead (register (raw_socket r)) 0x20 f (Ok tt); ERead (register (raw_socket r)) 0x24 p (Ok tt)] ++
       (if n =? 0 then [] else [EWrite (tx_buffer (raw_socket r)) (from_be p) d (Ok tt)]) ++
       [EWrite (register (raw_socket r)) 0x24 (to_be (if n =? 0 then from_be p else wadd16 (from_be p) n)) (Ok tt); EWrite (register (raw_socket r)) 0x01 [x20] (Ok tt)] ++
       map (fun c => ERead (register (raw_socket r)) 0x02 [c] (Ok tt)) (l ++ [c])) (Done (Ok n)).
Proof.
  intros Lf Lp B N fuel Hf n. unfold raw_write_frame, reset_interrupt. cbn [List.app]. gw. pose proof (from_be_lt f Lf) as Bf.
  change (?a :: ?b :: ?w) with ([a; b] ++ w). apply to_try with (a := mkCursor (from_be p) (from_be f)).
  { unfold tx_new, get_tx_free_size, get_tx_write_pointer. gr. gr. constructor. }
  apply to_try with (a := (mkCursor (if n =? 0 then from_be p else wadd16 (from_be p) n) (from_be f - n), n)).
  { unfold tx_write, available. cbn [size ptr]. destruct ((len d =? 0) || (from_be f <? len d)) eqn:E.
    - assert (n = 0) as ->.
      { subst n. apply Bool.orb_true_iff in E as [E|E]; [apply N.eqb_eq in E; rewrite E; now destruct (_ <=? _)|]. apply N.ltb_lt in E. destruct (len d <=? from_be f) eqn:G; [apply N.leb_le in G; lia|reflexivity]. }
      change (0 =? 0) with true. rewrite N.sub_0_r. constructor.
    - apply Bool.orb_false_iff in E as [E1 E2]. apply N.eqb_neq in E1. apply N.ltb_ge in E2. assert (En : n = len d) by (subst n; now rewrite (proj2 (N.leb_le _ _) E2)).
      assert (Ea : as_u16 (len d) = len d) by (apply N.mod_small; lia). rewrite Ea, En. rewrite (proj2 (N.eqb_neq _ _) E1).
      unfold slice_to. rewrite (proj2 (N.leb_le _ _) (N.le_refl (len d))).
      assert (Et : take (len d) d = d) by (unfold take, len; now rewrite Nnat.Nat2N.id, firstn_all). rewrite Et. gw.
      destruct (from_be f <? len d) eqn:G; [apply N.ltb_lt in G; lia|]. constructor. }
  cbn [fst snd ptr]. change (?a :: ?b :: ?w) with ([a; b] ++ w). apply to_try with (a := tt).
  { unfold tx_commit, set_tx_write_pointer, command. cbn [ptr]. gw. gw. constructor. }
  rewrite <- (app_nil_r (map _ _)). apply to_try with (a := tt); [now apply sendok_make|constructor].
Qed.

Lemma to_udp {R} s (h : berr -> R) k w o : exec (k x22) w o -> exec (try_ (get_status s) h k) (ERead (register s) 0x03 [x22] (Ok tt) :: w) o.
Proof. intros X. unfold get_status. gr. exact X. Qed.
Lemma udp_receive_make u d f l w p h got : N.testbit (b2n f) 2 = true ->
  Forall (fun q => fst q <> snd q /\ two q) l -> length w = 2%nat -> from_be w <> 0 -> d <> [] -> length p = 2%nat -> length h = 8%nat ->
  let n := N.max (N.min (from_be w) (len d)) (from_be (skipn 6 h)) in n <= len d -> len got = n -> forall fuel, (length l < fuel)%nat ->
  exec (udp_receive fuel u d)
    ([ERead (register (u_socket u)) 0x03 [x22] (Ok tt); ERead (register (u_socket u)) 0x02 [f] (Ok tt)] ++
     flat_map (fun q => [ERead (register (u_socket u)) 0x26 (fst q) (Ok tt); ERead (register (u_socket u)) 0x26 (snd q) (Ok tt)]) (l ++ [(w, w)]) ++
     [ERead (register (u_socket u)) 0x28 p (Ok tt); ERead (rx_buffer (u_socket u)) (from_be p) h (Ok tt); ERead (rx_buffer (u_socket u)) ((from_be p + 8) mod 65536) got (Ok tt);
      EWrite (register (u_socket u)) 0x28 (to_be ((from_be p + from_be w) mod 65536)) (Ok tt); EWrite (register (u_socket u)) 0x01 [x40] (Ok tt);
      EWrite (register (u_socket u)) 0x02 [x04] (Ok tt)])
    (Done (got ++ skipn (N.to_nat n) d, Ok (n, V4 (Addr4 (Ip4 (nth 0 h x00) (nth 1 h x00) (nth 2 h x00) (nth 3 h x00)) (from_be (firstn 2 (skipn 4 h))))))).
Proof.
  intros B F Lw W0 D0 Lp Lh n Hn Lg fuel Hf. unfold udp_receive. rewrite <- (app_nil_r (_ ++ _)).
  apply exec_bind_intro with (a := (got ++ skipn (N.to_nat n) d, Ok (n, udp_header_from h))).
  2:{ cbn [fst snd]. destruct h as [|h0 [|h1 [|h2 [|h3 [|h4 [|h5 [|h6 [|h7 [|]]]]]]]]]; try discriminate. constructor. }
  unfold udp_socket_receive. cbn [List.app]. apply to_udp. change (udp_status_gate x22) with (@Ok unit (nberr uerr) tt). cbv iota.
  unfold has_interrupt. gr. change (byte0 [f]) with f. change (interrupt_u8 InReceive) with 4. rewrite land_bit, B. cbn [negb].
  apply to_try with (a := from_be w); [now apply size_make|]. rewrite (proj2 (N.eqb_neq _ _) W0).
  assert (Dn : len d <> 0) by (intros E; apply D0; now apply len_0_nil). rewrite (proj2 (N.eqb_neq _ _) Dn).
  unfold get_rx_read_pointer, set_rx_read_pointer, command, reset_interrupt. gr. gr.
  assert (Eh : N.max (N.min (from_be w) (len d)) (h_len (udp_header_from h)) = n).
  { subst n. destruct h as [|h0 [|h1 [|h2 [|h3 [|h4 [|h5 [|h6 [|h7 [|]]]]]]]]]; try discriminate. reflexivity. }
  rewrite Eh. unfold slice_to. rewrite (proj2 (N.leb_le _ _) Hn).
  change (?a :: ?b :: ?w) with ([a] ++ b :: w). apply exec_bind_intro with (a := (got, Ok tt)).
  { unfold read_into. apply exec_read; [unfold len, take in *; rewrite firstn_length; lia|constructor]. }
  cbn [fst snd]. pose proof (from_be_lt w Lw) as Bw. unfold as_u16, wadd16. rewrite (N.mod_small (from_be w)) by exact Bw. gw. gw. gw. constructor.
Qed.

Lemma pairs_make u fin : settled (register (u_socket u)) fin -> forall q q', length q = 2%nat -> length q' = 2%nat -> from_be q = from_be q' ->
  forall l, Forall (fun a => from_be (fst a) <> from_be (snd a) /\ two a) l -> forall fuel, (length l < fuel)%nat ->
  exec (udp_flush_loop fuel u) (pairs (register (u_socket u)) (l ++ [(q, q')]) ++ fin) (Done (Ok tt)).
Proof.
  intros St q q' Lq Lq' Eq. induction l as [|[a b] l IH]; intros F [|fuel] L; cbn [length] in L; try lia; cbn [udp_flush_loop List.app pairs flat_map fst snd].
  - rewrite <- (app_nil_r (_ :: _)). apply exec_bind_intro with (a := Ok tt); [|constructor]. unfold udp_try_flush_tx, get_tx_read_pointer, get_tx_write_pointer. gr. gr.
    rewrite (proj2 (N.eqb_eq _ _) Eq). unfold has_interrupt, reset_interrupt. destruct St as [(c & Bc & ->)|(c & c' & Bc & Bc' & ->)]; gr; change (byte0 [c]) with c;
      change (interrupt_u8 InSendOk) with 16; rewrite bit4, Bc.
    + gw. constructor.
    + gr. change (byte0 [c']) with c'. change (interrupt_u8 InTimeout) with 8. rewrite bit3, Bc'. constructor.
  - inversion F as [|? ? (N & L1 & L2) F']; subst. cbn [fst snd] in *. change (?x :: ?y :: ?w) with ([x; y] ++ w) at 1. apply exec_bind_intro with (a := Err WouldBlock).
    + unfold udp_try_flush_tx, get_tx_read_pointer, get_tx_write_pointer. gr. gr. rewrite (proj2 (N.eqb_neq _ _) N). constructor.
    + apply IH; [exact F'|lia].
Qed.

Lemma batch_make u d f p l q q' fin : u_dest u <> None -> length f = 2%nat -> length p = 2%nat -> from_be f <> 0 ->
  Forall (fun a => from_be (fst a) <> from_be (snd a) /\ two a) l -> two (q, q') -> from_be q = from_be q' -> settled (register (u_socket u)) fin ->
  let n := N.min (len d) (from_be f) in forall fuel, (length l < fuel)%nat ->
  exec (udp_socket_send fuel u d) ([ERead (register (u_socket u)) 0x03 [x22] (Ok tt); ERead (register (u_socket u)) 0x20 f (Ok tt); ERead (register (u_socket u)) 0x24 p (Ok tt); EWrite (tx_buffer (u_socket u)) (from_be p) (take n d) (Ok tt);
      EWrite (register (u_socket u)) 0x24 (to_be (wadd16 (from_be p) (as_u16 n))) (Ok tt); EWrite (register (u_socket u)) 0x01 [x20] (Ok tt)] ++ pairs (register (u_socket u)) (l ++ [(q, q')]) ++ fin) (Done (Ok n)).
Proof.
  intros Hu Lf Lp F0 Hl [Lq Lq'] Eq St n fuel Hf. unfold udp_socket_send. cbn [List.app]. apply to_udp. change (udp_status_gate x22) with (@Ok unit (nberr uerr) tt). cbv iota.
  destruct (u_dest u); [|now elim Hu]. unfold get_tx_free_size. gr. rewrite (proj2 (N.eqb_neq _ _) F0).
  assert (X : forall d0, d0 = take n d -> len d0 = n -> exec (udp_send_data fuel u d0) (ERead (register (u_socket u)) 0x24 p (Ok tt) :: EWrite (tx_buffer (u_socket u)) (from_be p) (take n d) (Ok tt) ::
      EWrite (register (u_socket u)) 0x24 (to_be (wadd16 (from_be p) (as_u16 n))) (Ok tt) :: EWrite (register (u_socket u)) 0x01 [x20] (Ok tt) :: pairs (register (u_socket u)) (l ++ [(q, q')]) ++ fin) (Done (Ok n))).
  { intros d0 E0 L0. rewrite <- E0, <- L0. unfold udp_send_data, get_tx_write_pointer, set_tx_write_pointer, udp_block_send_command, command. gr. gw. gw.
    match goal with |- exec _ ?tr _ => rewrite <- (app_nil_r tr) end. apply to_try with (a := tt); [|constructor]. gw. now apply pairs_make. }
  destruct (len d <? from_be f) eqn:F.
  - apply N.ltb_lt in F. assert (En : n = len d) by (subst n; lia). apply X; [|now rewrite En]. rewrite En. unfold take, len. now rewrite Nnat.Nat2N.id, firstn_all.
  - apply N.ltb_ge in F. assert (En : n = from_be f) by (subst n; lia). unfold slice_to. rewrite (proj2 (N.leb_le _ _) F). apply X; [now rewrite En|].
    rewrite En. unfold take, len in *. rewrite firstn_length. lia.
Qed.
Lemma sending_make u d : u_dest u <> None -> forall cap rem tr, sending (register (u_socket u)) (tx_buffer (u_socket u)) cap rem tr ->
  forall total, total <= len d -> rem = drop total d -> exists N, forall outer fuel, (N <= outer)%nat -> (N <= fuel)%nat ->
  exec (udp_send_loop outer fuel u d cap total) tr (Done (Ok tt)).
Proof.
  intros Hu cap rem tr S. induction S as [cap|cap rem d1 d2 f p l q q' fin f' rest Nd Ed Lf Lp Lf' F0 L1 Hl Lq Eq St SS IH]; intros total Ht Er.
  - exists 0%nat. intros outer fuel _ _. assert (L0 : len (drop total d) = 0) by now rewrite <- Er. rewrite len_drop in L0.
    destruct outer; cbn [udp_send_loop]; rewrite (proj2 (N.eqb_eq total (len d)) ltac:(lia)); constructor.
  - assert (Lr : len rem = len d - total) by (rewrite Er; apply len_drop). assert (R0 : len rem <> 0) by (intros E; apply Nd; now apply len_0_nil).
    set (n := len d1) in *. assert (E1 : d1 = take n rem). { subst n. rewrite Ed. unfold take, len. rewrite Nnat.Nat2N.id, firstn_app, firstn_all, Nat.sub_diag. cbn [firstn]. now rewrite app_nil_r. }
    assert (E2 : d2 = drop n rem). { subst n. rewrite Ed. unfold drop, len. rewrite Nnat.Nat2N.id, skipn_app, skipn_all, Nat.sub_diag. reflexivity. }
    destruct (IH (total + n)) as (N & HN); [lia|rewrite E2, Er; apply drop_drop|]. exists (1 + (N + length l))%nat. intros [|outer] fuel Ho Hf; [lia|]. cbn [udp_send_loop].
    rewrite (proj2 (N.eqb_neq total (len d)) ltac:(lia)). unfold slice_from, slice_to. rewrite (proj2 (N.leb_le total (len d)) Ht), <- Er, (proj2 (N.leb_le (N.min cap (len rem)) (len rem)) ltac:(lia)).
    set (b := take (N.min cap (len rem)) rem). assert (Lb : len b = N.min cap (len rem)) by (subst b; unfold take, len in *; rewrite firstn_length; lia).
    assert (En : n = N.min (len b) (from_be f)) by (rewrite Lb; exact L1). assert (Tb : take n b = d1) by (rewrite E1; subst b; unfold take; rewrite firstn_firstn; f_equal; lia).
    rewrite !app_assoc, <- (app_assoc _ _ rest), <- !(app_assoc _ _ fin). cbn [List.app]. 
    apply (to_try _ _ _ ([ERead (register (u_socket u)) 0x03 [x22] (Ok tt); ERead (register (u_socket u)) 0x20 f (Ok tt); ERead (register (u_socket u)) 0x24 p (Ok tt); EWrite (tx_buffer (u_socket u)) (from_be p) d1 (Ok tt);
      EWrite (register (u_socket u)) 0x24 (to_be (wadd16 (from_be p) (as_u16 n))) (Ok tt); EWrite (register (u_socket u)) 0x01 [x20] (Ok tt)] ++ pairs (register (u_socket u)) (l ++ [(q, q')]) ++ fin) n).
    + rewrite <- Tb, En. apply batch_make; auto. lia.
    + unfold get_tx_free_size. gr. apply HN; lia.
Qed.
Lemma udp_send_make u d f rest : u_dest u <> None -> length f = 2%nat -> from_be f <> 0 -> sending (register (u_socket u)) (tx_buffer (u_socket u)) (from_be f) d rest ->
  exists N, forall fuel, (N <= fuel)%nat ->
  exec (udp_send_all fuel u d) ([ERead (register (u_socket u)) 0x03 [x22] (Ok tt); ERead (register (u_socket u)) 0x20 f (Ok tt)] ++ rest) (Done (Ok tt)).
Proof.
  intros Hu Lf F0 S. destruct (sending_make u d Hu _ _ _ S 0 ltac:(lia) eq_refl) as (N & HN). exists N. intros fuel Hf.
  unfold udp_send_all. cbn [List.app]. apply to_udp. change (udp_status_gate x22) with (@Ok unit (nberr uerr) tt). cbv iota.
  destruct (u_dest u); [|now elim Hu]. unfold get_tx_free_size. gr. rewrite (proj2 (N.eqb_neq _ _) F0). now apply HN.
Qed.

(** ** MACRAW read *)
Lemma sized_once b p p' t t' : forall l l' w w', differing l -> differing l' ->
  sized b (l ++ [(w, w)]) ++ ERead b 0x28 p (Ok tt) :: t = sized b (l' ++ [(w', w')]) ++ ERead b 0x28 p' (Ok tt) :: t' -> l = l' /\ w = w' /\ p = p' /\ t = t'.
Proof.
  induction l as [|[x y] l IH]; intros [|[x' y'] l'] w w' D D' E; cbn in E.
  - injection E as -> _ -> ->. auto.
  - injection E as -> -> E. inversion D' as [|? ? N _]. now elim N.
  - injection E as -> -> E. inversion D as [|? ? N _]. now elim N.
  - injection E as -> -> E. inversion D; inversion D'; subst. destruct (IH l' w w') as (-> & H); auto.
Qed.
Lemma raw_read_start fuel r frame tr frame' m : exec (raw_read_frame fuel r frame) tr (Done (frame', Ok m)) ->
  exists l w p rest, Forall (fun q => fst q <> snd q /\ two q) l /\ length w = 2%nat /\ length p = 2%nat /\
  tr = sized (register (raw_socket r)) (l ++ [(w, w)]) ++ ERead (register (raw_socket r)) 0x28 p (Ok tt) :: rest.
Proof.
  intros X. unfold raw_read_frame in X. apply try_on in X as (t1 & c & t2 & -> & X1 & X); [|discriminate]. unfold rx_new in X1.
  apply try_on in X1 as (t3 & sz & t4 & -> & X2 & X1); [|discriminate]. apply size_done in X2 as (l & w & F & Lw & -> & ->). unfold get_rx_read_pointer in X1. rd X1 p Lp.
  apply ret_on in X1 as [-> _]. exists l, w, p, t2. rewrite <- app_assoc. auto.
Qed.
(** one copy out of the receive buffer *)
Lemma rx_read_make s c buf got : len buf < 65536 -> let m := N.min (size c) (len buf) in len got = m ->
  exec (rx_read s c buf) (if len buf =? 0 then [] else [ERead (rx_buffer s) (ptr c) got (Ok tt)])
    (Done (got ++ drop m buf, Ok (if len buf =? 0 then c else mkCursor (wadd16 (ptr c) m) (size c - m), m))).
Proof.
  intros Hb m Lg. destruct (N.eqb_spec (len buf) 0) as [L0|L0].
  - apply len_0_nil in L0. subst buf. assert (m = 0) as Em by (subst m; change (len (@nil byte)) with 0; lia). rewrite Em in *. apply len_0_nil in Lg. subst got. constructor.
  - match goal with |- exec _ ?t ?o => enough (X : exec (let count := N.min (available c) (as_u16 (len buf)) in
      slice_to P_cursor_slice count buf (fun front => do gr <- read_into (rx_buffer s) (ptr c) front ;;
      let buf' := fst gr ++ drop count buf in match snd gr with Err e => Ret (buf', Err e) | Ok _ => Ret (buf', Ok (rx_skip c count)) end)) t o) end.
    { destruct buf; [now elim L0|exact X]. }
    cbv zeta. unfold as_u16. rewrite (N.mod_small (len buf)) by exact Hb. unfold available. fold m. unfold slice_to. rewrite (proj2 (N.leb_le m (len buf)) ltac:(subst m; lia)).
    rewrite <- (app_nil_r [_]). apply exec_bind_intro with (a := (got, Ok tt)).
    + unfold read_into. apply exec_read; [|constructor]. unfold len in *. rewrite length_take. lia.
    + cbn [fst snd]. unfold rx_skip, available. rewrite (N.min_r (size c) m) by (subst m; lia). constructor.
Qed.
Lemma raw_read_make r frame l w p h got : Forall (fun q => fst q <> snd q /\ two q) l -> length w = 2%nat -> length p = 2%nat -> length h = 2%nat -> 2 <= from_be w ->
  let body := from_be h - 2 in let held := from_be w - 2 in let m := N.min body (N.min held (len frame)) in len got = m -> forall fuel, (length l < fuel)%nat ->
  exec (raw_read_frame fuel r frame)
    (sized (register (raw_socket r)) (l ++ [(w, w)]) ++ ERead (register (raw_socket r)) 0x28 p (Ok tt) :: ERead (rx_buffer (raw_socket r)) (from_be p) h (Ok tt) ::
     (if (body =? 0) || (len frame =? 0) then [] else [ERead (rx_buffer (raw_socket r)) ((from_be p + 2) mod 65536) got (Ok tt)]) ++
     [EWrite (register (raw_socket r)) 0x28 (to_be ((from_be p + 2 + N.min body held) mod 65536)) (Ok tt); EWrite (register (raw_socket r)) 0x01 [x40] (Ok tt)])
    (Done (got ++ drop m frame, Ok m)).
Proof.
  intros F Lw Lp Lh W2 body held m Lg fuel Hf. pose proof (from_be_lt w Lw) as Bw. pose proof (from_be_lt h Lh) as Bh. pose proof (from_be_lt p Lp) as Bp. unfold raw_read_frame.
  match goal with |- exec _ (?a ++ ?b :: ?c) _ => change (a ++ b :: c) with (a ++ [b] ++ c); rewrite app_assoc end.
  apply to_try with (a := mkCursor (from_be p) (from_be w)).
  { unfold rx_new. apply to_try with (a := from_be w); [now apply size_make|]. unfold get_rx_read_pointer. gr. constructor. }
  unfold available. cbn [size]. rewrite (proj2 (N.eqb_neq (from_be w) 0) ltac:(lia)).
  assert (Em2 : N.min (size (mkCursor (from_be p) (from_be w))) (len (zeros 2)) = 2) by (cbn [size]; change (len (zeros 2)) with 2; lia).
  match goal with |- exec _ (?b :: ?c) _ => change (b :: c) with ([b] ++ c) end.
  assert (XH := rx_read_make (raw_socket r) (mkCursor (from_be p) (from_be w)) (zeros 2) h ltac:(reflexivity)). cbv zeta in XH. rewrite Em2 in XH. cbn [size ptr] in XH.
  specialize (XH ltac:(unfold len; rewrite Lh; reflexivity)). change (len (zeros 2) =? 0) with false in XH. change (drop 2 (zeros 2)) with (@nil byte) in XH. rewrite app_nil_r in XH.
  eapply exec_bind_intro; [exact XH|]. cbn [fst snd]. change (2 =? 2) with true. change (ssub16 (from_be h) 2) with body.
  unfold raw_read_body. fold held. unfold wadd16.
  set (c := mkCursor ((from_be p + 2) mod 65536) held).
  set (c1 := if (body =? 0) || (len frame =? 0) then c else mkCursor (wadd16 (ptr c) m) (size c - m)).
  apply exec_bind_intro with (a := (got ++ drop m frame, Ok (c1, m))).
  { unfold rx_read_upto. destruct (N.ltb_spec body (len frame)) as [Lt|Ge].
    - unfold slice_to. rewrite (proj2 (N.leb_le body (len frame)) ltac:(lia)). match goal with |- exec _ ?t _ => rewrite <- (app_nil_r t) end.
      assert (Lt0 : len (take body frame) = body) by (rewrite len_take; lia).
      assert (Em : N.min (size c) (len (take body frame)) = m) by (rewrite Lt0; cbn [size c]; subst m; lia).
      assert (X := rx_read_make (raw_socket r) c (take body frame) got ltac:(lia)). cbv zeta in X. rewrite Em, Lt0 in X. specialize (X Lg).
      apply exec_bind_intro with (a := (got ++ drop m (take body frame), Ok (c1, m))).
      + subst c1. rewrite (proj2 (N.eqb_neq (len frame) 0) ltac:(lia)), Bool.orb_false_r. exact X.
      + cbn [fst snd]. replace (got ++ drop m frame) with ((got ++ drop m (take body frame)) ++ drop body frame); [constructor|].
        rewrite <- app_assoc. f_equal. rewrite <- (take_drop body frame) at 3. unfold drop, take. rewrite skipn_app. f_equal.
        rewrite firstn_length. replace (N.to_nat m - _)%nat with 0%nat by (unfold len in *; lia). reflexivity.
    - assert (Em : N.min (size c) (len frame) = m) by (cbn [size c]; subst m; lia).
      assert (X := rx_read_make (raw_socket r) c frame got ltac:(lia)). cbv zeta in X. rewrite Em in X. specialize (X Lg).
      subst c1. destruct (N.eqb_spec (len frame) 0) as [E0|E0]; [rewrite Bool.orb_true_r; exact X|].
      rewrite (proj2 (N.eqb_neq body 0) ltac:(lia)). exact X. }
  cbn [fst snd]. set (c2 := if m <? body then fst (rx_skip c1 (body - m)) else c1).
  assert (P2 : ptr c2 = (from_be p + 2 + N.min body held) mod 65536).
  { assert (P1 : ptr c1 = (from_be p + 2 + m) mod 65536 /\ size c1 = held - m).
    { subst c1. destruct ((body =? 0) || (len frame =? 0)) eqn:E; cbn [ptr size c].
      - assert (m = 0) as -> by (subst m; apply Bool.orb_true_iff in E as [E|E]; apply N.eqb_eq in E; lia). rewrite N.add_0_r, N.sub_0_r. auto.
      - unfold wadd16. rewrite N.add_mod_idemp_l by discriminate. auto. }
    destruct P1 as [P1 S1]. subst c2. destruct (N.ltb_spec m body).
    - unfold rx_skip, available, wadd16. cbn [fst ptr]. rewrite P1, S1, N.add_mod_idemp_l by discriminate. f_equal. subst m. lia.
    - rewrite P1. f_equal. subst m. lia. }
  rewrite <- (app_nil_r [_; _]). apply to_try with (a := tt); [|constructor].
  unfold rx_commit, set_rx_read_pointer, command. rewrite P2. gw. gw. constructor.
Qed.
Lemma raw_read_none r frame l w p : Forall (fun q => fst q <> snd q /\ two q) l -> length w = 2%nat -> length p = 2%nat -> from_be w = 0 -> forall fuel, (length l < fuel)%nat ->
  exec (raw_read_frame fuel r frame) (sized (register (raw_socket r)) (l ++ [(w, w)]) ++ [ERead (register (raw_socket r)) 0x28 p (Ok tt)]) (Done (frame, Ok 0)).
Proof.
  intros F Lw Lp W0 fuel Hf. unfold raw_read_frame. match goal with |- exec _ ?t _ => rewrite <- (app_nil_r t) end. apply to_try with (a := mkCursor (from_be p) (from_be w)).
  { unfold rx_new. apply to_try with (a := from_be w); [now apply size_make|]. unfold get_rx_read_pointer. gr. constructor. }
  unfold available. cbn [size]. rewrite W0. constructor.
Qed.
