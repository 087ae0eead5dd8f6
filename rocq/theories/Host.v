(** Models /repo/src/host/{mod,manual,dhcp}.rs. *)
From Verif Require Export Socket.

(** host/mod.rs:12-21 *)
Record HostConfig := mkHC { hc_mac : mac; hc_ip : ipv4; hc_gateway : ipv4; hc_subnet : ipv4 }.
(** host/mod.rs:24-33 *)
Definition hc_default : HostConfig :=
  mkHC mac_unspecified ip_unspecified ip_unspecified ip_unspecified.

(** host/mod.rs:48-52, 53-57, 58-62, 63-67: one guarded register write.  [current] is
    updated after a successful write. *)
Definition hc_set_gateway (c : HostConfig) (x : ipv4) := mkHC (hc_mac c) (hc_ip c) x (hc_subnet c).
Definition hc_set_subnet (c : HostConfig) (x : ipv4) := mkHC (hc_mac c) (hc_ip c) (hc_gateway c) x.
Definition hc_set_mac (c : HostConfig) (x : mac) := mkHC x (hc_ip c) (hc_gateway c) (hc_subnet c).
Definition hc_set_ip (c : HostConfig) (x : ipv4) := mkHC (hc_mac c) x (hc_gateway c) (hc_subnet c).

Definition write_if (changed : bool) (addr : N) (data : list byte) (cur cur' : HostConfig)
    (k : HostConfig -> prog (HostConfig * res unit berr)) : prog (HostConfig * res unit berr) :=
  if changed then
    try a <- write_frame COMMON addr data else (fun e => (cur, Err e)) ;; k cur'
  else k cur.

(** host/mod.rs:43-69: new value of [current] and the result *)
Definition write_settings (current settings : HostConfig) : prog (HostConfig * res unit berr) :=
  write_if (negb (ipv4_eqb (hc_gateway settings) (hc_gateway current))) c_GATEWAY
    (octets (hc_gateway settings)) current (hc_set_gateway current (hc_gateway settings))
  (fun current =>
  write_if (negb (ipv4_eqb (hc_subnet settings) (hc_subnet current))) c_SUBNET_MASK
    (octets (hc_subnet settings)) current (hc_set_subnet current (hc_subnet settings))
  (fun current =>
  write_if (negb (mac_eqb (hc_mac settings) (hc_mac current))) c_MAC
    (mac_octets (hc_mac settings)) current (hc_set_mac current (hc_mac settings))
  (fun current =>
  write_if (negb (ipv4_eqb (hc_ip settings) (hc_ip current))) c_IP
    (octets (hc_ip settings)) current (hc_set_ip current (hc_ip settings))
  (fun current => Ret (current, Ok tt))))).

(** The two [Host] implementations: host/manual.rs:9-13 and host/dhcp.rs:7-10 *)
Inductive host :=
| Manual (is_setup : bool) (settings current : HostConfig)
| Dhcp.

(** host/manual.rs:16-27 *)
Definition manual_new (m : mac) (ip gateway subnet : ipv4) : host :=
  Manual false (mkHC m ip gateway subnet) hc_default.

(** host/dhcp.rs:13-22: the MAC address argument is ignored *)
Definition dhcp_new (m : mac) : host := Dhcp.

(** host/manual.rs:32-38, host/dhcp.rs:27-31 *)
Definition refresh (h : host) : prog (host * res unit berr) :=
  match h with
  | Dhcp => Ret (Dhcp, Ok tt)
  | Manual true s c => Ret (h, Ok tt)
  | Manual false s c =>
      do r <- write_settings c s ;;
      Ret (match snd r with
           | Ok _ => Manual true s (fst r)
           | Err _ => Manual false s (fst r)
           end, snd r)
  end.
