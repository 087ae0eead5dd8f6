(** A program using one [Device]: any sequence of calls of its public API, including the
    methods of the raw [Socket] handle (socket.rs:47-207) and [UdpSocket::set_port]
    (udp.rs:104-113).  Those two take the bus itself, which the application has between
    [Device::deactivate] and [InactiveDevice::activate] (device.rs:278-297); the model does
    not make it say so.

    The application owns the device and the socket handles it was given.  Rust's ownership
    rules are part of the model: a handle is consumed by [close] / [release_socket], and a
    call can only be made with a handle the application still owns ([RNoHandle] marks calls
    that could not be written).  [OpForget] is a handle that goes out of scope: none of the
    handle types implements Drop (tcp.rs:42, udp.rs:63, socket.rs:8).  Two devices in one
    program are the subject of a separate theorem. *)
From Verif Require Export Device.

Inductive handle :=
| HSock (s : Socket)     (* from Device::take_socket *)
| HTcp (t : TcpSocket)
| HUdp (u : UdpSocket).

Definition handle_socket (h : handle) : Socket :=
  match h with HSock s => s | HTcp t => t_socket t | HUdp u => u_socket u end.

Record app := mkApp { dev : DeviceState; handles : list (nat * handle); fresh : nat }.

(** device.rs:126-276: register accessors *)
Inductive devop :=
| QGateway | QSubnetMask | QMac | QIp | QPhyConfig | QVersion
| QRetryTimeout | QRetryCount
| QSetMode (m : Mode) | QSetRetryTimeout (r : RetryTime) | QSetRetryCount (n : byte)
| QResetDevice.

(** socket.rs:47-207: the methods of a [Socket] handle *)
Inductive sockop :=
| KSetMode (m : Protocol) | KStatus | KResetInterrupt (i : Interrupt) | KHasInterrupt (i : Interrupt)
| KSetSourcePort (p : N) | KSetDestinationIp (a : ipv4) | KSetDestinationPort (p : N)
| KTxRead | KSetTxRead (p : N) | KTxWrite | KSetTxWrite (p : N) | KRxRead | KSetRxRead (p : N)
| KSetMask (m : N) | KCommand (c : Command) | KReceiveSize | KTxFree.

Inductive op :=
| OpTakeSocket | OpReleaseSocket (h : nat)
| OpTcpSocket | OpTcpConnect (h : nat) (remote : sockaddr) | OpTcpSend (h : nat) (d : list byte)
| OpTcpReceive (h : nat) (buf : list byte) | OpTcpClose (h : nat)
| OpUdpSocket | OpUdpConnect (h : nat) (remote : sockaddr) | OpUdpBind (h : nat) (port : N)
| OpUdpSend (h : nat) (d : list byte) | OpUdpSendTo (h : nat) (remote : sockaddr) (d : list byte)
| OpUdpReceive (h : nat) (buf : list byte) | OpUdpClose (h : nat)
| OpForget (h : nat)
| OpSuspend                     (* deactivate, then activate on the same bus *)
| OpDevice (q : devop)
| OpUdpSetPort (h : nat) (port : N)
| OpSocket (h : nat) (q : sockop).

Inductive devout :=
| DIp (r : res ipv4 berr) | DMac (r : res mac berr) | DPhy (r : res PhyConfig berr)
| DByte (r : res byte berr) | DRetryTime (r : res RetryTime berr) | DUnit (r : res unit berr).

Inductive sockout :=
| KUnit (r : res unit berr) | KByte (r : res byte berr) | KBool (r : res bool berr)
| KNum (r : res N berr).

Inductive out :=
| RNoHandle
| RUnit
| RSocket (r : option nat)
| RTcpSocket (r : res nat terr)
| RTcpConnect (r : res unit (nberr terr))
| RTcpSend (r : res N (nberr terr))
| RTcpReceive (buf : list byte) (r : res N (nberr terr))
| RTcpClose (r : res unit terr)
| RUdpSocket (r : res nat uerr)
| RUdpUnit (r : res unit uerr)
| RUdpSend (r : res unit (nberr uerr))
| RUdpReceive (buf : list byte) (r : res (N * sockaddr) (nberr uerr))
| RDevice (r : devout)
| RSockop (r : sockout).

Fixpoint lookup (h : nat) (l : list (nat * handle)) : option handle :=
  match l with
  | [] => None
  | (i, x) :: l' => if Nat.eqb i h then Some x else lookup h l'
  end.
Fixpoint remove (h : nat) (l : list (nat * handle)) : list (nat * handle) :=
  match l with
  | [] => []
  | (i, x) :: l' => if Nat.eqb i h then remove h l' else (i, x) :: remove h l'
  end.
(** a handle's fields changed through [&mut] *)
Fixpoint update (h : nat) (v : handle) (l : list (nat * handle)) : list (nat * handle) :=
  match l with
  | [] => []
  | (i, x) :: l' => if Nat.eqb i h then (i, v) :: l' else (i, x) :: update h v l'
  end.

Definition grant (a : app) (d : DeviceState) (x : handle) : app :=
  mkApp d (handles a ++ [(fresh a, x)]) (S (fresh a)).
Definition put (a : app) (h : nat) (x : handle) : app :=
  mkApp (dev a) (update h x (handles a)) (fresh a).
Definition consume (a : app) (d : DeviceState) (h : nat) : app :=
  mkApp d (remove h (handles a)) (fresh a).

Definition run_devop (q : devop) : prog devout :=
  match q with
  | QGateway => do r <- dev_gateway ;; Ret (DIp r)
  | QSubnetMask => do r <- dev_subnet_mask ;; Ret (DIp r)
  | QMac => do r <- dev_mac ;; Ret (DMac r)
  | QIp => do r <- dev_ip ;; Ret (DIp r)
  | QPhyConfig => do r <- dev_phy_config ;; Ret (DPhy r)
  | QVersion => do r <- dev_version ;; Ret (DByte r)
  | QRetryTimeout => do r <- dev_current_retry_timeout ;; Ret (DRetryTime r)
  | QRetryCount => do r <- dev_current_retry_count ;; Ret (DByte r)
  | QSetMode m => do r <- dev_set_mode m ;; Ret (DUnit r)
  | QSetRetryTimeout t => do r <- dev_set_retry_timeout t ;; Ret (DUnit r)
  | QSetRetryCount n => do r <- dev_set_retry_count n ;; Ret (DUnit r)
  | QResetDevice => do r <- reset_device ;; Ret (DUnit r)
  end.

Definition run_sockop (fuel : nat) (s : Socket) (q : sockop) : prog sockout :=
  match q with
  | KSetMode m => do r <- set_mode s m ;; Ret (KUnit r)
  | KStatus => do r <- get_status s ;; Ret (KByte r)
  | KResetInterrupt i => do r <- reset_interrupt s i ;; Ret (KUnit r)
  | KHasInterrupt i => do r <- has_interrupt s i ;; Ret (KBool r)
  | KSetSourcePort p => do r <- set_source_port s p ;; Ret (KUnit r)
  | KSetDestinationIp a => do r <- set_destination_ip s a ;; Ret (KUnit r)
  | KSetDestinationPort p => do r <- set_destination_port s p ;; Ret (KUnit r)
  | KTxRead => do r <- get_tx_read_pointer s ;; Ret (KNum r)
  | KSetTxRead p => do r <- set_tx_read_pointer s p ;; Ret (KUnit r)
  | KTxWrite => do r <- get_tx_write_pointer s ;; Ret (KNum r)
  | KSetTxWrite p => do r <- set_tx_write_pointer s p ;; Ret (KUnit r)
  | KRxRead => do r <- get_rx_read_pointer s ;; Ret (KNum r)
  | KSetRxRead p => do r <- set_rx_read_pointer s p ;; Ret (KUnit r)
  | KSetMask m => do r <- set_interrupt_mask s m ;; Ret (KUnit r)
  | KCommand c => do r <- command s c ;; Ret (KUnit r)
  | KReceiveSize => do r <- get_receive_size fuel s ;; Ret (KNum r)
  | KTxFree => do r <- get_tx_free_size s ;; Ret (KNum r)
  end.

(** one API call; [fuel] bounds the busy-wait loops inside it *)
Definition step (fuel : nat) (a : app) (o : op) : prog (app * out) :=
  match o with
  | OpTakeSocket =>
      match take_socket (dev a) with
      | (d, Some s) => Ret (grant a d (HSock s), RSocket (Some (fresh a)))
      | (d, None) => Ret (mkApp d (handles a) (fresh a), RSocket None)
      end
  | OpReleaseSocket h =>
      match lookup h (handles a) with
      | Some (HSock s) =>
          match release_socket (dev a) s with
          | Some d => Ret (consume a d h, RUnit)
          | None => Panic P_set_bit
          end
      | _ => Ret (a, RNoHandle)
      end
  | OpTcpSocket =>
      match tcp_socket (dev a) with
      | (d, Ok t) => Ret (grant a d (HTcp t), RTcpSocket (Ok (fresh a)))
      | (d, Err e) => Ret (mkApp d (handles a) (fresh a), RTcpSocket (Err e))
      end
  | OpTcpConnect h remote =>
      match lookup h (handles a) with
      | Some (HTcp t) => do r <- tcp_connect fuel t remote ;; Ret (a, RTcpConnect r)
      | _ => Ret (a, RNoHandle)
      end
  | OpTcpSend h d =>
      match lookup h (handles a) with
      | Some (HTcp t) => do r <- tcp_send fuel t d ;; Ret (a, RTcpSend r)
      | _ => Ret (a, RNoHandle)
      end
  | OpTcpReceive h buf =>
      match lookup h (handles a) with
      | Some (HTcp t) =>
          do r <- tcp_receive fuel t buf ;; Ret (a, RTcpReceive (fst r) (snd r))
      | _ => Ret (a, RNoHandle)
      end
  | OpTcpClose h =>
      match lookup h (handles a) with
      | Some (HTcp t) =>
          do r <- tcp_close (dev a) t ;; Ret (consume a (fst r) h, RTcpClose (snd r))
      | _ => Ret (a, RNoHandle)
      end
  | OpUdpSocket =>
      match udp_socket (dev a) with
      | (d, Ok u) => Ret (grant a d (HUdp u), RUdpSocket (Ok (fresh a)))
      | (d, Err e) => Ret (mkApp d (handles a) (fresh a), RUdpSocket (Err e))
      end
  | OpUdpConnect h remote =>
      match lookup h (handles a) with
      | Some (HUdp u) =>
          do r <- udp_connect u remote ;; Ret (put a h (HUdp (fst r)), RUdpUnit (snd r))
      | _ => Ret (a, RNoHandle)
      end
  | OpUdpBind h port =>
      match lookup h (handles a) with
      | Some (HUdp u) =>
          do r <- udp_bind u port ;; Ret (put a h (HUdp (fst r)), RUdpUnit (snd r))
      | _ => Ret (a, RNoHandle)
      end
  | OpUdpSend h d =>
      match lookup h (handles a) with
      | Some (HUdp u) => do r <- udp_send fuel u d ;; Ret (a, RUdpSend r)
      | _ => Ret (a, RNoHandle)
      end
  | OpUdpSendTo h remote d =>
      match lookup h (handles a) with
      | Some (HUdp u) =>
          do r <- udp_send_to fuel u remote d ;; Ret (put a h (HUdp (fst r)), RUdpSend (snd r))
      | _ => Ret (a, RNoHandle)
      end
  | OpUdpReceive h buf =>
      match lookup h (handles a) with
      | Some (HUdp u) =>
          do r <- udp_receive fuel u buf ;; Ret (a, RUdpReceive (fst r) (snd r))
      | _ => Ret (a, RNoHandle)
      end
  | OpUdpClose h =>
      match lookup h (handles a) with
      | Some (HUdp u) =>
          do r <- udp_close (dev a) u ;; Ret (consume a (fst r) h, RUdpUnit (snd r))
      | _ => Ret (a, RNoHandle)
      end
  | OpForget h => Ret (consume a (dev a) h, RUnit)
  | OpSuspend => Ret (mkApp (activate (deactivate (dev a))) (handles a) (fresh a), RUnit)
  | OpDevice q => do r <- run_devop q ;; Ret (a, RDevice r)
  | OpUdpSetPort h port =>
      match lookup h (handles a) with
      | Some (HUdp u) =>
          do r <- udp_set_port u port ;; Ret (put a h (HUdp (fst r)), RUdpUnit (snd r))
      | _ => Ret (a, RNoHandle)
      end
  | OpSocket h q =>
      match lookup h (handles a) with
      | Some (HSock s) => do r <- run_sockop fuel s q ;; Ret (a, RSockop r)
      | _ => Ret (a, RNoHandle)
      end
  end.

(** a whole program: the calls in order, with their results *)
Fixpoint run_ops (fuel : nat) (a : app) (ops : list op) : prog (app * list out) :=
  match ops with
  | [] => Ret (a, [])
  | o :: ops' =>
      do r <- step fuel a o ;;
      do rs <- run_ops fuel (fst r) ops' ;;
      Ret (fst rs, snd r :: snd rs)
  end.

(** right after initialisation *)
Definition app_new (h : host) : app := mkApp (ds_new h) [] 0.
