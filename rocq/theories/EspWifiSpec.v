(** What the Wi-Fi and chip metrics should say. *)
From Coq Require Import String.
From Verif Require Import Base Metrics HttpUtilsSpec HttpRequestSpec DeviceIdSpec EspWifi.
Local Open Scope list_scope.
Local Open Scope Z_scope.

(** ** The lowest signal strength of those measured since the last heartbeat, of those below -10. *)
Fixpoint lowest (l : list Z) : option Z :=
  match l with
  | [] => None
  | r :: t => if r <? -10 then Some (match lowest t with Some m => Z.min r m | None => r end) else lowest t
  end.
Definition says (key : Z) (o : option Z) : list mop := match o with Some m => [OSetS key m] | None => [] end.
(** Histories with the measurements alone. *)
Inductive sig := Up | Measured (rssi : Z) | Beat.
Fixpoint low_spec (key : Z) (past : list Z) (l : list sig) : list (list mop) :=
  match l with
  | [] => []
  | Up :: r => low_spec key past r
  | Measured v :: r => low_spec key (past ++ [v]) r
  | Beat :: r => says key (lowest past) :: low_spec key [] r
  end.
(** Each event is handled before the next measurement. *)
Definition promptly (s : sig) : list rop := match s with Up => [RConnected] | Measured v => [RBeacon v; RHandle] | Beat => [RCollect] end.
(** In any order. *)
Fixpoint sig_of (l : list rop) : list sig :=
  match l with [] => [] | RConnected :: r => Up :: sig_of r | RBeacon v :: r => Measured v :: sig_of r | RHandle :: r => sig_of r | RCollect :: r => Beat :: sig_of r end.

(** ** Standards, old to new *)
Inductive std := B | A | G | N | AC | AX.
Definition has (v51 v53 : bool) (p : ap) (s : std) : bool :=
  match s with B => ap_b p | G => ap_g p | N => ap_n p | A => v53 && ap_a p | AC => v53 && ap_ac p | AX => v51 && ap_ax p end.
Definition std_name (s : std) : list Z :=
  str "802.11" ++ match s with B => str "b" | A => str "a" | G => str "g" | N => str "n" | AC => str "ac" | AX => str "ax" end.
Definition rank (s : std) : Z := match s with B => 1 | A => 2 | G => 3 | N => 4 | AC => 5 | AX => 6 end.

(** ** The maker of the access point, from its address *)
Definition maker (bssid : list Z) : list Z :=
  match bssid with x :: y :: z :: _ => in_hex (table false) [x] ++ str ":" ++ in_hex (table false) [y] ++ str ":" ++ in_hex (table false) [z] | _ => [] end.
Definition bssid_ok (p : ap) : Prop := zlen (ap_bssid p) = 6 /\ bytes (ap_bssid p).
(** The address of the access point seen last. *)
Definition last_bssid (l : list (option ap)) : list Z :=
  fold_left (fun b p => match p with Some p => ap_bssid p | None => b end) l (fill 6 0).
(** What is set of a metric. *)
Fixpoint set_text (key : Z) (ops : list mop) : option (list Z) :=
  match ops with [] => None | OSetStr k t :: r => if k =? key then Some t else set_text key r | _ :: r => set_text key r end.
Fixpoint set_number (key : Z) (ops : list mop) : option Z :=
  match ops with [] => None | OSetU k v :: r => if k =? key then Some v else set_number key r | _ :: r => set_number key r end.
(** The names of the modes of authentication, by their numbers in ESP-IDF. *)
Definition mode_name (mode : Z) : list Z :=
  if mode =? 0 then str "OPEN" else if mode =? 1 then str "WEP" else if mode =? 2 then str "WPA-PSK" else if mode =? 3 then str "WPA2-PSK"
  else if mode =? 4 then str "WPA-WPA2-PSK" else if mode =? 5 then str "WPA2-ENTERPRISE" else if mode =? 6 then str "WPA3-PSK"
  else if mode =? 7 then str "WPA2-WPA3-PSK" else if mode =? 8 then str "WAPI-PSK" else if mode =? 10 then str "WPA3-ENT-192" else str "UNKNOWN".
(** Texts that a metric of [n] characters holds as they are. *)
Definition fits (n : Z) (t : list Z) : Prop := 0 < zlen t <= n /\ ~ In 0 t.
(** The revision of a chip, such as esp32s3-1.2 *)
Definition revision (target : list Z) (rev : Z) (t : list Z) : Prop :=
  exists a b, decimal_text (rev / 100) a /\ decimal_text (rev mod 100) b /\ t = target ++ str "-" ++ a ++ str "." ++ b.
