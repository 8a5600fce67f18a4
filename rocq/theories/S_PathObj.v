(** * S_PathObj: path list objects (specification, C121). *)
From Coq Require Import String.
From Verif Require Import Py S_Codec M_Suns M_Mbmap S_Mbmap M_Path M_PathObj.

(** ** what is in a path list, from the record of operations and results only *)
(** what a PathList was made from: Some None without a list, Some (Some r) from list r *)
Definition made_from (t : list (pop * pout)) (o : nat) : option (option nat) :=
  match find (fun e => match e with (PNew _, ONum n) => Nat.eqb n o | _ => false end) t with
  | Some (PNew r, _) => Some r
  | _ => None
  end.
(** the paths added to a PathList itself *)
Definition added (t : list (pop * pout)) (o : nat) : list str :=
  flat_map (fun e => match e with (PAdd o' p, OUnit) => if Nat.eqb o' o then [p] else [] | _ => [] end) t.
(** what a list was made with, and what was appended to it or added to any PathList made from it, in order *)
Definition in_list (t : list (pop * pout)) (r : nat) : list str :=
  flat_map (fun e => match e with
    | (PNewList l, ONum n) => if Nat.eqb n r then l else []
    | (PAppend n p, OUnit) => if Nat.eqb n r then [p] else []
    | (PAdd o p, OUnit) => match made_from t o with Some (Some n) => if Nat.eqb n r then [p] else [] | _ => [] end
    | _ => [] end) t.
Definition paths_of (t : list (pop * pout)) (o : nat) : option (list str) :=
  match made_from t o with Some None => Some (added t o) | Some (Some r) => Some (in_list t r) | None => None end.

(** ** Python text: the body of a string literal between quotes [q] and the text it denotes *)
Inductive hex_digits : str -> Z -> Prop :=
| hd_nil : hex_digits [] 0
| hd_snoc s v c d : hex_digits s v -> digit_of 16 c d -> hex_digits (s ++ [c]) (16 * v + d).
Inductive literal (q : Z) : str -> str -> Prop :=
| li_end : literal q [] []
| li_char c b s : c <> q -> c <> 92 -> c <> 10 -> c <> 13 -> literal q b s -> literal q (c :: b) (c :: s)
| li_same c b s : c = 39 \/ c = 34 \/ c = 92 -> literal q b s -> literal q (92 :: c :: b) (c :: s)
| li_tab b s : literal q b s -> literal q (92 :: 116 :: b) (9 :: s)
| li_lf b s : literal q b s -> literal q (92 :: 110 :: b) (10 :: s)
| li_cr b s : literal q b s -> literal q (92 :: 114 :: b) (13 :: s)
| li_hex k n h v b s : (k, n) = (120, 2) \/ (k, n) = (117, 4) \/ (k, n) = (85, 8) -> zlen h = n -> hex_digits h v ->
    literal q b s -> literal q (92 :: k :: h ++ b) (v :: s).
Definition quoted (t s : str) : Prop := exists q b, (q = 39 \/ q = 34) /\ t = [q] ++ b ++ [q] /\ literal q b s.
(** a list display: the quoted items with comma and blank between them, in brackets *)
Inductive items : str -> list str -> Prop :=
| it_one t s : quoted t s -> items t [s]
| it_more t s u l : quoted t s -> items u l -> items (t ++ [44; 32] ++ u) (s :: l).
Inductive display : str -> list str -> Prop :=
| di_nil : display [91; 93] []
| di_items t l : items t l -> display ([91] ++ t ++ [93]) l.
