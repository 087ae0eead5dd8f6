(** C54: what a MACRAW read_frame that succeeds did, access by access. *)
From Verif Require Import CallFacts.

Lemma xt_read_exact c buf : size c < 65536 -> ptr c < 65536 -> len buf < 65536 ->
  xt (rx_read (socket_new 0) c buf) (fun tr o =>
    match o with
    | Done (buf', Ok (c', m)) => exists got, len got = m /\ m = N.min (size c) (len buf) /\ buf' = got ++ drop m buf /\
         tr = match buf with [] => [] | _ => [ERead (BSB_RX 0) (ptr c) got (Ok tt)] end /\
         size c' = size c - m /\ ptr c' = (ptr c + m) mod 65536
    | _ => True
    end).
Proof.
  intros Hs Hp Hb. unfold rx_read. destruct buf as [|x buf0] eqn:EB.
  { apply xt_ret. exists []. split; [reflexivity|]. split; [cbn; lia|]. split; [reflexivity|]. split; [reflexivity|].
    split; [lia|]. rewrite N.add_0_r. symmetry. now apply N.mod_small. }
  cbv zeta. rewrite <- EB in *. unfold as_u16. rewrite (N.mod_small (len buf)) by exact Hb.
  set (count := N.min (available c) (len buf)).
  unfold slice_to. destruct (N.leb_spec count (len buf)); [|lia].
  apply xt_bind, xt_read. intros got r Lg. cbn [fst snd].
  assert (Lgot : len got = count) by (unfold len; rewrite Lg, length_take; unfold len in *; lia).
  destruct r as [[]|e]; apply xt_ret; [|exact I].
  unfold rx_skip. cbn [size ptr]. rewrite N.min_r by (subst count; lia).
  exists got. split; [exact Lgot|]. split; [reflexivity|]. split; [reflexivity|]. split; [reflexivity|]. split; reflexivity.
Qed.
Lemma xt_upto_exact c buf mx : size c < 65536 -> ptr c < 65536 -> mx < 65536 ->
  xt (rx_read_upto (socket_new 0) c buf mx) (fun tr o =>
    match o with
    | Done (buf', Ok (c', m)) => exists got, len got = m /\ m = N.min mx (N.min (size c) (len buf)) /\ buf' = got ++ drop m buf /\
         tr = (if (mx =? 0) || (len buf =? 0) then [] else [ERead (BSB_RX 0) (ptr c) got (Ok tt)]) /\
         size c' = size c - m /\ ptr c' = (ptr c + m) mod 65536
    | _ => True
    end).
Proof.
  intros Hs Hp Hm. unfold rx_read_upto. destruct (N.ltb_spec mx (len buf)) as [Lt|Ge].
  - unfold slice_to. destruct (N.leb_spec mx (len buf)); [|lia].
    apply xt_bind. eapply xt_mono; [|apply (xt_read_exact c (take mx buf) Hs Hp)]; [|rewrite len_take; lia].
    cbv beta. intros tr [[b' [[c' m]|e]]|w| |] H1; try (apply xt_ret; exact I); try exact I.
    destruct H1 as (got & L1 & L2 & L3 & L4 & L5 & L6). rewrite len_take in L2. apply xt_ret. rewrite app_nil_r.
    exists got. split; [exact L1|]. split; [lia|]. split.
    { cbn [fst]. rewrite L3, <- app_assoc. f_equal. rewrite <- (take_drop mx buf) at 3. unfold drop, take.
      rewrite skipn_app. f_equal. rewrite firstn_length. replace (N.to_nat m - _)%nat with 0%nat by (unfold len in *; lia). reflexivity. }
    split; [|auto]. rewrite L4. destruct (N.eqb_spec mx 0) as [->|]; [reflexivity|]. destruct (N.eqb_spec (len buf) 0); [lia|]. cbn [orb].
    destruct (take mx buf) eqn:E; [|reflexivity]. apply (f_equal len) in E. rewrite len_take in E. cbn in E. lia.
  - eapply xt_mono; [|apply (xt_read_exact c buf Hs Hp)]; [|lia].
    cbv beta. intros tr [[b' [[c' m]|e]]|w| |] H1; try exact I. destruct H1 as (got & L1 & L2 & L3 & L4 & L5 & L6).
    exists got. split; [exact L1|]. split; [lia|]. split; [exact L3|]. split; [|auto]. rewrite L4.
    destruct buf; [now rewrite orb_true_r|]. destruct (N.eqb_spec mx 0) as [->|]; [|reflexivity]. exfalso. cbn in Ge. lia.
Qed.

Lemma raw_read_exact fuel frame :
  xt (raw_read_frame fuel (mkRaw (socket_new 0)) frame) (fun tr o =>
    forall frame' m, o = Done (frame', Ok m) ->
    exists l w p rest, differing l /\ length w = 2%nat /\ length p = 2%nat /\
       tr = size_reads (BSB_REG 0) l w ++ ERead (BSB_REG 0) Sn_RX_RD p (Ok tt) :: rest /\
       (from_be w = 0 /\ rest = [] /\ frame' = frame /\ m = 0 \/
        exists h got, length h = 2%nat /\ 2 <= from_be w /\
          let body := from_be h - 2 in let held := from_be w - 2 in
          m = N.min body (N.min held (len frame)) /\ len got = m /\ frame' = got ++ drop m frame /\
          rest = ERead (BSB_RX 0) (from_be p) h (Ok tt) ::
            (if (body =? 0) || (len frame =? 0) then [] else [ERead (BSB_RX 0) ((from_be p + 2) mod 65536) got (Ok tt)]) ++
            [EWrite (BSB_REG 0) Sn_RX_RD (to_be ((from_be p + 2 + N.min body held) mod 65536)) (Ok tt);
             EWrite (BSB_REG 0) Sn_CR [u8 CR_RECV] (Ok tt)])).
Proof.
  unfold raw_read_frame. cbn [raw_socket]. cbv zeta. apply xt_try. unfold rx_new. apply xt_try_size.
  2: { discriminate. }
  2: { discriminate. }
  intros l w D Lw. apply xt_try_get.
  2: { discriminate. }
  intros p Lp. apply xt_ret. cbn [available size ptr].
  set (n := from_be w). set (base := from_be p).
  assert (Hbase : base < 65536) by (apply from_be_lt; exact Lp).
  assert (Hn : n < 65536) by (apply from_be_lt; exact Lw).
  destruct (N.eqb_spec n 0) as [N0|N0].
  { apply xt_ret. intros f' m [= <- <-]. exists l, w, p, []. rewrite <- app_assoc. repeat (split; [assumption || reflexivity|]). left. auto. }
  apply xt_bind. eapply xt_mono; [|apply (xt_read_exact (mkCursor base n) (zeros 2))]; try (cbn; lia); try exact Hbase; try exact Hn.
  cbv beta. cbn [size ptr]. intros tr [[h [[c' m]|e]]|s| |] H; try discriminate; try exact I; cbn [fst snd]; [|apply xt_ret; discriminate].
  destruct H as (g & Lg & Em & Eh & Etr & Es & Ep). change (len (zeros 2)) with 2 in Em. cbn [zeros repeat N.to_nat] in Etr.
  destruct (N.eqb_spec m 2) as [M2|M2]; [|apply xt_panic; discriminate].
  rewrite M2 in *. clear M2 m. change (drop 2 (zeros 2)) with (@nil byte) in Eh. rewrite app_nil_r in Eh. subst h.
  assert (Lg2 : length g = 2%nat) by (unfold len in Lg; lia).
  assert (Hh : from_be g < 65536) by (apply from_be_lt; exact Lg2).
  set (ex := from_be g - 2). change (ssub16 (from_be g) 2) with ex. unfold raw_read_body.
  assert (Hc' : ptr c' < 65536) by (rewrite Ep; apply N.mod_lt; discriminate).
  apply xt_bind. eapply xt_mono; [|apply (xt_upto_exact c' frame ex)]; try lia.
  cbv beta. intros tr2 [[f' [[c2 m2]|e]]|s| |] K; try discriminate; try exact I; cbn [fst snd]; [|apply xt_ret; discriminate].
  destruct K as (got & L1 & L2 & L3 & L4 & L5 & L6).
  set (c3 := if m2 <? ex then fst (rx_skip c2 (ex - m2)) else c2).
  assert (Hc3 : ptr c3 = (base + 2 + N.min ex (n - 2)) mod 65536).
  { subst c3. rewrite Es in *. destruct (N.ltb_spec m2 ex).
    - unfold rx_skip. cbn [fst ptr]. unfold wadd16, available. rewrite L6, Ep, N.add_mod_idemp_l by discriminate.
      rewrite <- N.add_assoc, N.add_mod_idemp_l by discriminate. f_equal. lia.
    - rewrite L6, Ep, N.add_mod_idemp_l by discriminate. f_equal. lia. }
  unfold rx_commit, set_rx_read_pointer, command. cbv zeta. apply xt_try, xt_try_write.
  2: { discriminate. }
  apply xt_try_write.
  2: { discriminate. }
  apply xt_ret. apply xt_ret. intros f2 m3 [= <- <-].
  exists l, w, p. rewrite <- !app_assoc. eexists. repeat (split; [assumption || reflexivity|]). right. exists g, got. split; [exact Lg2|]. split; [lia|].
  split; [rewrite L2, Es; reflexivity|]. split; [exact L1|]. split; [exact L3|].
  rewrite Etr, L4, Hc3, Ep. cbn [List.app]. reflexivity.
Qed.
