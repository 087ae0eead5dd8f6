(** C116: a program that sends every Ethernet frame it receives out again. *)
From Verif Require Import RawSession RawCalls ReadFacts Cases ErrorFacts TcpSession NetFacts.
From Verif Require Import Datasheet.


(** [n] rounds: read a frame into [buf]; if there was one, write it.  The first call that fails ends
    it.  Answers the buffer and, if a call failed, what it answered. *)
Fixpoint repeater (n fuel : nat) (buf : list byte) : prog (list byte * option rawout) :=
  match n with
  | O => Ret (buf, None)
  | S n' =>
      do u <- raw_step fuel (mkRaw (socket_new 0)) (RwRead buf) ;;
      match u with
      | RwFrame buf' (Ok k) =>
          if k =? 0 then repeater n' fuel buf'
          else
            do w <- raw_step fuel (mkRaw (socket_new 0)) (RwWrite (take k buf')) ;;
            match w with
            | RwSent (Ok _) => repeater n' fuel buf'
            | o => Ret (buf', Some o)
            end
      | o => Ret (buf, Some o)
      end
  end.
(** what comes out for a frame: the frame, cut to a buffer of [m] bytes; nothing for an empty one *)
Definition repeated (m : N) (f : list byte) : list (list byte) := match take m f with [] => [] | g => [g] end.

Lemma take_app_take (k m : N) (g l : list byte) : k = N.min (len g) m -> take k (take k g ++ l) = take m g.
Proof.
  intros ->. unfold take, len. rewrite firstn_app, firstn_firstn, firstn_length.
  replace (_ - _)%nat with 0%nat by lia. cbn [firstn]. rewrite app_nil_r.
  destruct (N.le_ge_cases (N.of_nat (length g)) m) as [H|H].
  - rewrite (firstn_all2 (n := Nat.min _ _)) by lia. rewrite firstn_all2 by lia. reflexivity.
  - f_equal. lia.
Qed.
Lemma filled_length g buf buf' n : filled_with g buf buf' n -> len buf' = len buf.
Proof. intros [-> ->]. unfold take, drop, len. rewrite app_length, firstn_length, skipn_length. lia. Qed.
Lemma repeated_wrote m g u : m <= 16384 -> take m g <> [] -> wrote (RwWrite (take m g)) (RwSent (Ok u)) = repeated m g.
Proof.
  intros Hm H. cbn [wrote]. unfold repeated. assert (L : 0 < len (take m g) <= 16384).
  { split; [destruct (take m g); [easy|unfold len; cbn [length]; lia]|]. unfold take, len. rewrite firstn_length. lia. }
  destruct (N.ltb_spec 0 (len (take m g))); [|lia]. destruct (N.leb_spec (len (take m g)) 16384); [|lia]. cbn [andb].
  destruct (take m g); [easy|reflexivity].
Qed.
Lemma repeats e fuel : forall n buf q s r s', rawsess (sk 0 s) -> fqueue (sk 0 s) q -> len buf <= 16384 ->
  run e (repeater n fuel buf) s = (Done (r, None), s') ->
  rawsess (sk 0 s') /\ exists q' taken rest, q ++ q' = taken ++ rest /\ rxlog (sk 0 s') = rxlog (sk 0 s) ++ frames q' /\ fqueue (sk 0 s') rest /\ Forall wf_frame taken /\
    map p_data (sent (sk 0 s')) = map p_data (sent (sk 0 s)) ++ flat_map (repeated (len buf)) taken /\ (Nat.min n (length q) <= length taken)%nat.
Proof.
  induction n as [|n IH]; intros buf q s r s' Se Q Hb R; cbn [repeater] in R.
  - injection R as <- <-. split; [exact Se|]. exists [], [], q. cbn [flat_map Datatypes.app Nat.min length]. change (frames []) with (@nil byte). rewrite !app_nil_r.
    repeat split; auto; apply Q.
  - apply run_bind_done in R as (u & s1 & R1 & R). destruct u as [?|buf' [k|?]|?]; try discriminate R.
    pose proof (raw_step_effect e fuel (RwRead buf) q _ s s1 Se Q R1 eq_refl) as (Se1 & T1 & l & rest & q1 & A1 & A2 & A3 & A4 & A5 & A6).
    cbn [wrote] in T1. rewrite app_nil_r in T1. cbn [handed1] in A4.
    assert (B : len buf' = len buf) by (destruct A4 as [(_ & -> & _)|(g & _ & G)]; [reflexivity|eapply filled_length; exact G]).
    assert (M : (Nat.min 1 (length q) <= length l)%nat) by (destruct q as [|q0 q]; [cbn; lia|]; destruct l; [now destruct (A6 buf eq_refl ltac:(discriminate))|cbn [length]; lia]).
    assert (M' : (length q <= length l + length rest)%nat) by (rewrite <- app_length, <- A1, app_length; lia).
    assert (Fin : forall s2 w (W : w = flat_map (repeated (len buf)) l), forall q2 rest2, rest ++ q2 = rest2 -> rawsess (sk 0 s2) -> fqueue (sk 0 s2) rest2 -> rxlog (sk 0 s2) = rxlog (sk 0 s1) ++ frames q2 ->
      map p_data (sent (sk 0 s2)) = map p_data (sent (sk 0 s1)) ++ w -> run e (repeater n fuel buf') s2 = (Done (r, None), s') ->
      rawsess (sk 0 s') /\ exists q' taken rest, q ++ q' = taken ++ rest /\ rxlog (sk 0 s') = rxlog (sk 0 s) ++ frames q' /\ fqueue (sk 0 s') rest /\ Forall wf_frame taken /\
      map p_data (sent (sk 0 s')) = map p_data (sent (sk 0 s)) ++ flat_map (repeated (len buf)) taken /\ (Nat.min (S n) (length q) <= length taken)%nat).
    { intros s2 w -> q2 rest2 E2 Se2 Q2 L2 T2 R2. destruct (IH buf' rest2 s2 r s' Se2 Q2 ltac:(lia) R2) as (Se3 & q3 & taken & rest3 & C1 & C2 & C3 & C4 & C5 & C6).
      split; [exact Se3|]. exists (q1 ++ q2 ++ q3), (l ++ taken), rest3. split; [rewrite app_assoc, A1, <- !app_assoc; f_equal; rewrite app_assoc, E2; exact C1|].
      split; [rewrite C2, L2, A3, !frames_app, !app_assoc; reflexivity|]. split; [exact C3|]. split; [apply Forall_app; auto|].
      split; [rewrite C5, T2, T1, flat_map_app, B, app_assoc; reflexivity|]. rewrite app_length. subst rest2. rewrite app_length in C6. lia. }
    destruct (N.eqb_spec k 0) as [K|K].
    + refine (Fin s1 [] _ [] rest (app_nil_r _) Se1 A2 _ _ R); [|change (frames []) with (@nil byte); now rewrite app_nil_r|now rewrite app_nil_r].
      destruct A4 as [(-> & _)|(g & -> & G1 & G2)]; [reflexivity|]. cbn [flat_map]. rewrite app_nil_r. unfold repeated.
      assert (Z : take (len buf) g = []). { subst k. unfold take, len in *. destruct g; [apply firstn_nil|]. cbn [length] in K. destruct buf; [reflexivity|cbn [length] in K; lia]. }
      now rewrite Z.
    + apply run_bind_done in R as (w & s2 & R2 & R). destruct w as [?|? ?|[v|?]]; try discriminate R.
      destruct A4 as [(_ & _ & ->)|(g & -> & G1 & G2)]; [easy|].
      assert (Z : take k buf' = take (len buf) g) by (rewrite G2; now apply take_app_take).
      rewrite Z in R2. pose proof (raw_step_effect e fuel _ rest _ s1 s2 Se1 A2 R2 eq_refl) as (Se2 & T2 & l2 & rest2 & q2 & D1 & D2 & D3 & D4 & _).
      assert (D0 : l2 = []) by exact D4. subst l2. cbn [Datatypes.app] in D1.
      rewrite (repeated_wrote (len buf) g v Hb) in T2.
      * refine (Fin s2 _ _ q2 rest2 D1 Se2 D2 D3 T2 R). cbn [flat_map]. now rewrite app_nil_r.
      * intros E. apply K. subst k. clear - E. unfold take, len in *. destruct g; [cbn [length]; lia|]. destruct buf; [cbn [length]; lia|]. rewrite Nat2N.id in E. discriminate E.
Qed.

(** ** C116 *)
(** At any moment of a MACRAW program without bus errors, whatever the network does: after any number
    of rounds, the frames that were queued and those that have come since are, in order, those that
    have been taken and those that are queued now; and what has gone out since is exactly the frames
    taken, in order and once each, cut to the buffer (empty ones leave nothing).  Every round takes one
    while there is one. *)
Theorem C116_repeater e mc fuel0 ops outs s1 s n fuel buf r s' :
  macraw_reached e mc fuel0 ops outs s1 s -> len buf <= 16384 ->
  run e (repeater n fuel buf) s = (Done (r, None), s') ->
  exists queued come taken waiting,
    pending (socks (s_chip s) 0) = concat (map raw_record queued) /\ Forall (fun f => len f < 65534) (queued ++ come) /\
    rxlog (socks (s_chip s') 0) = rxlog (socks (s_chip s) 0) ++ concat (map raw_record come) /\
    queued ++ come = taken ++ waiting /\
    pending (socks (s_chip s') 0) = concat (map raw_record waiting) /\
    map p_data (sent (socks (s_chip s') 0)) = map p_data (sent (socks (s_chip s) 0)) ++ flat_map (repeated (len buf)) taken /\
    (Nat.min n (length queued) <= length taken)%nat.
Proof.
  intros H Hb R. destruct (macraw_reached_inv _ _ _ _ _ _ _ H) as (Se & _ & t & q & _ & Q & _).
  destruct (repeats e fuel n buf q s r s' Se Q Hb R) as (_ & q' & taken & rest & A & B & C & D & E & F).
  exists q, q', taken, rest. split; [apply Q|]. split; [rewrite A; apply Forall_app; split; [exact D|apply C]|]. split; [exact B|]. split; [exact A|]. split; [apply C|]. split; [exact E|exact F].
Qed.
Print Assumptions C116_repeater.
(** A buffer that is long enough: nothing is cut; with frames that are not empty (no Ethernet frame
    is), what has gone out is what was taken. *)
Theorem C116_unchanged m taken : Forall (fun f => 0 < len f <= m) taken -> flat_map (repeated m) taken = taken.
Proof.
  induction 1 as [|f l [H1 H2] _ IH]; [reflexivity|]. cbn [flat_map]. unfold repeated. replace (take m f) with f.
  - destruct f; [now apply N.lt_irrefl in H1|]. change (([b :: f] ++ flat_map (repeated m) l) = (b :: f) :: l). now rewrite IH.
  - unfold take. rewrite firstn_all2; [reflexivity|unfold len in H2; lia].
Qed.
Print Assumptions C116_unchanged.
(** frames of three bytes and of five come while the program runs; the buffer has four bytes *)
Definition busy_net : env := mkEnv (fun t => (if Nat.eqb t 31 then [EvFrame [x61; x62; x63]; EvFrame []] else if Nat.eqb t 41 then [EvFrame [x71; x72; x73; x74; x75]] else []) ++ [EvTransmit 0 1; EvSendOk 0]) (fun _ => None).
Example C116_case : exists s1 s', macraw_reached busy_net (Mac x02 x03 x04 x05 x06 x07) 30 [] [] s1 s1 /\
  run busy_net (repeater 4 30 [x00; x00; x00; x00]) s1 = (Done ([x71; x72; x73; x74], None), s') /\
  map p_data (sent (socks (s_chip s') 0)) = [[x61; x62; x63]; [x71; x72; x73; x74]].
Proof.
  eexists _, _. split.
  - eexists sys0, _. split; [apply run_snd; vm_compute; reflexivity|]. split; [reflexivity|constructor].
  - split; [apply run_snd; vm_compute; reflexivity|]. vm_compute. reflexivity.
Qed.
