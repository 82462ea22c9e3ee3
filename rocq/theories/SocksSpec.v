(** Specification for C80: SOCKS4, SOCKS4A and SOCKS5 (RFC 1928) requests. *)
From Verif Require Import Base.
Local Open Scope Z_scope.

(** A decimal numeral without unnecessary zeros *)
Fixpoint value (acc : Z) (s : list Z) : Z := match s with [] => acc | c :: r => value (acc * 10 + (c - 48)) r end.
Definition numeral (s : list Z) (n : Z) : Prop :=
  s <> [] /\ Forall (fun c => 48 <= c <= 57) s /\ (hd 0 s = 48 -> s = [48]) /\ value 0 s = n.
(** An IPv4 address in dotted form *)
Definition ipv4_text (s : list Z) (addr : list Z) : Prop :=
  exists a b c d ta tb tc td, addr = [a; b; c; d] /\ s = ta ++ [46] ++ tb ++ [46] ++ tc ++ [46] ++ td /\
  numeral ta a /\ numeral tb b /\ numeral tc c /\ numeral td d.
(** What comes before the first NUL *)
Definition up_to_nul (s t : list Z) : Prop := ~ In 0 t /\ (s = t \/ exists u, s = t ++ 0 :: u).

(** A SOCKS4 request to connect to [host], [port]; the address 0.0.0.x says that a
    name follows. *)
Inductive request4 : list Z -> list Z -> Z -> Prop :=
| r4_addr : forall port addr user host, length addr = 4%nat -> ~ (exists x, addr = [0; 0; 0; x] /\ x <> 0) -> ~ In 0 user -> 0 <= port < 65536 ->
    8 + zlen user + 1 <= 1026 -> ipv4_text host addr -> request4 (4 :: 1 :: be_enc 2 port ++ addr ++ user ++ [0]) host port
| r4_name : forall port x user host, x <> 0 -> ~ In 0 user -> ~ In 0 host -> 0 <= port < 65536 ->
    8 + zlen user + 1 + zlen host + 1 <= 1026 -> request4 (4 :: 1 :: be_enc 2 port ++ [0; 0; 0; x] ++ user ++ [0] ++ host ++ [0]) host port.
Inductive request5 (text6 : list Z -> list Z) : list Z -> list Z -> Z -> Prop :=
| r5_addr : forall port addr host, length addr = 4%nat -> 0 <= port < 65536 -> ipv4_text host addr -> request5 text6 ([5; 1; 0; 1] ++ addr ++ be_enc 2 port) host port
| r5_name : forall port name host, zlen name < 256 -> 0 <= port < 65536 -> up_to_nul name host -> request5 text6 ([5; 1; 0; 3; zlen name] ++ name ++ be_enc 2 port) host port
| r5_addr6 : forall port addr, length addr = 16%nat -> 0 <= port < 65536 -> request5 text6 ([5; 1; 0; 4] ++ addr ++ be_enc 2 port) (text6 addr) port.
(** The methods offered include "no authentication". *)
Definition greeting5 (g : list Z) : Prop := exists methods, g = 5 :: zlen methods :: methods /\ zlen methods < 256 /\ In 0 methods.

(** Everything a client says and is told until it is connected.  After the SOCKS5
    greeting a SOCKS4 request is taken, too. *)
Inductive asks (text6 : list Z -> list Z) : list Z -> list Z -> list Z -> Z -> Prop :=
| asks4 : forall r h p, request4 r h p -> asks text6 r [0; 90; 0; 0; 0; 0; 0; 0] h p
| asks5 : forall g r h p, greeting5 g -> request5 text6 r h p -> asks text6 (g ++ r) [5; 0; 5; 0; 0; 1; 0; 0; 0; 0; 0; 0] h p
| asks5_4 : forall g r h p, greeting5 g -> request4 r h p -> asks text6 (g ++ r) [5; 0; 0; 90; 0; 0; 0; 0; 0; 0] h p.
