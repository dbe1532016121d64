(** Specification of the commands of the demo command lines. *)
From Verif Require Import Base.
Open Scope Z_scope.

(** The value of digits *)
Definition value (base : Z) (ds : list Z) : Z := fold_left (fun a d => base * a + d) ds 0.
(** A text that begins with a decimal number: white space, a sign, digits and what does not go on with a digit *)
Definition blanks (l : list Z) : Prop := Forall (fun c => c = 32 \/ 9 <= c <= 13) l.
Definition decimal (ds t : list Z) : Prop := ds <> [] /\ Forall (fun d => 0 <= d <= 9) ds /\ t = map (fun d => 48 + d) ds.
Definition stops (rest : list Z) : Prop := match rest with c :: _ => ~ (48 <= c <= 57) | [] => True end.
Definition says (s : list Z) (n : Z) : Prop :=
  exists ws sg ds t rest, blanks ws /\ decimal ds t /\ stops rest /\ s = ws ++ sg ++ t ++ rest /\
    ((sg = [] \/ sg = [43]) /\ n = value 10 ds \/ sg = [45] /\ n = - value 10 ds).
(** One that does not: the first character after white space is no digit and no sign *)
Definition no_number (s : list Z) : Prop :=
  exists ws rest, blanks ws /\ s = ws ++ rest /\ match rest with c :: _ => ~ (48 <= c <= 57) /\ c <> 43 /\ c <> 45 /\ c <> 32 /\ ~ (9 <= c <= 13) | [] => True end.
(** A text that is a hexadecimal number after 0x, small letters, or a decimal number without a leading 0 *)
Definition hex_char (d : Z) : Z := if d <? 10 then 48 + d else 87 + d.
Definition says_address (s : list Z) (n : Z) : Prop :=
  (exists ds, ds <> [] /\ Forall (fun d => 0 <= d <= 15) ds /\ s = 48 :: 120 :: map hex_char ds /\ n = value 16 ds) \/
  (exists d ds, 1 <= d <= 9 /\ Forall (fun d => 0 <= d <= 9) ds /\ s = map (fun d => 48 + d) (d :: ds) /\ n = value 10 (d :: ds)).
