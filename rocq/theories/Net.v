(** Models /repo/src/net.rs and the [core::net] address types the driver uses. *)
From Verif Require Export Registers.
From Coq Require Import Strings.Ascii Strings.String.

(** core::net::Ipv4Addr *)
Record ipv4 := Ip4 { ip0 : byte; ip1 : byte; ip2 : byte; ip3 : byte }.
(** Ipv4Addr::octets *)
Definition octets (i : ipv4) : list byte := [ip0 i; ip1 i; ip2 i; ip3 i].
(** Ipv4Addr::from([u8; 4]); the list always has four elements where the code uses it *)
Definition ipv4_from (l : list byte) : ipv4 :=
  Ip4 (nth 0 l x00) (nth 1 l x00) (nth 2 l x00) (nth 3 l x00).
(** Ipv4Addr::UNSPECIFIED *)
Definition ip_unspecified : ipv4 := Ip4 x00 x00 x00 x00.
Definition ipv4_eqb (a b : ipv4) : bool := bytes_eqb (octets a) (octets b).

(** core::net::SocketAddrV4 *)
Record addr4 := Addr4 { a_ip : ipv4; a_port : N }.
Definition addr4_eqb (a b : addr4) : bool :=
  ipv4_eqb (a_ip a) (a_ip b) && (a_port a =? a_port b).

(** core::net::SocketAddr; the contents of a V6 address are never inspected *)
Inductive sockaddr := V4 (a : addr4) | V6.

(** net.rs:22-25; MacAddress { octets: [u8; 6] } *)
Record mac := Mac { m0 : byte; m1 : byte; m2 : byte; m3 : byte; m4 : byte; m5 : byte }.
(** net.rs:41-45 *)
Definition mac_new (a b c d e f : byte) : mac := Mac a b c d e f.
(** net.rs:57-66 and the public field *)
Definition mac_octets (m : mac) : list byte := [m0 m; m1 m; m2 m; m3 m; m4 m; m5 m].
(** net.rs:93-97, and the in-place read of device.rs:140-145 *)
Definition mac_from (l : list byte) : mac :=
  mac_new (nth 0 l x00) (nth 1 l x00) (nth 2 l x00) (nth 3 l x00) (nth 4 l x00) (nth 5 l x00).
(** net.rs:79, [Default] *)
Definition mac_unspecified : mac := mac_new x00 x00 x00 x00 x00 x00.
Definition mac_eqb (a b : mac) : bool := bytes_eqb (mac_octets a) (mac_octets b).

(** one upper-case hexadecimal digit, as produced by [{:X}] *)
Definition hexdigit (n : N) : ascii :=
  if n <? 10 then ascii_of_N (48 + n) else ascii_of_N (55 + n).
(** [{:02X}] of a byte *)
Definition hex02 (b : byte) (rest : string) : string :=
  String (hexdigit (b2n b / 16)) (String (hexdigit (b2n b mod 16)) rest).
Definition colon : ascii := ascii_of_N 58.
(** net.rs:102-113 Display *)
Definition mac_display (m : mac) : string :=
  hex02 (m0 m) (String colon (hex02 (m1 m) (String colon (hex02 (m2 m) (String colon
  (hex02 (m3 m) (String colon (hex02 (m4 m) (String colon (hex02 (m5 m) EmptyString)))))))))).
