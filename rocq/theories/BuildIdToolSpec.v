(** What putting an id into a file shall do. *)
From Coq Require Import String.
From Verif Require Import Base BuildIdTool.

(** [f'] is [f] with [b] at [pos], and nothing else. *)
Definition changed (f f' : list Z) (pos : Z) (b : list Z) : Prop :=
  zlen f' = zlen f /\ forall x, get f' x = if (pos <=? x) && (x <? pos + zlen b) then get b (x - pos) else get f x.
(** The section is in the file, and no other loaded section shares its bytes. *)
Definition placed (e : elf) (file : list Z) (s : sect) : Prop :=
  s_nobits s = false /\ 0 <= s_off s /\ s_off s + s_size s <= zlen file /\
  forall s', In s' (e_sects e) -> s_alloc s' = true -> s_nobits s' = false ->
    0 <= s_off s' /\ 0 <= s_size s' /\ (s' = s \/ s_off s' + s_size s' <= s_off s \/ s_off s + s_size s <= s_off s').
(** Where a symbol is in the file. *)
Definition position (v : Z) (s : sect) : Z := s_off s + (v - s_addr s).
(** What is loaded: the addresses and the bytes. *)
Definition image (e : elf) (file : list Z) : list (Z * list Z) :=
  map (fun s => (s_addr s, if s_nobits s then fill (s_size s) 0 else take (s_size s) (drop (s_off s) file))) (filter s_alloc (e_sects e)).
(** All loaded sections are in the file. *)
Definition complete (e : elf) (file : list Z) : Prop :=
  forall s, In s (e_sects e) -> s_alloc s = true -> s_nobits s = false -> 0 <= s_off s /\ 0 <= s_size s /\ s_off s + s_size s <= zlen file.
(** Lower case hexadecimal digits of bytes. *)
Definition hex_digit (v : Z) : Z := nth (Z.to_nat v) (str "0123456789abcdef") 0.
Definition hex_text (l : list Z) : list Z := concat (map (fun b => [hex_digit (b / 16); hex_digit (b mod 16)]) l).
