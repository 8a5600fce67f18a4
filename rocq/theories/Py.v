(** * Py: the fragment of Python 3 semantics the model of pysunspec is written in.

    Nothing in this file models code of /repo; it fixes how Python values and
    exceptions are represented by the model files [M_*.v]. *)
From Coq Require Import String Ascii.
From Coq Require Export ZArith List Bool Lia.
Export ListNotations.
Global Open Scope Z_scope.

(** ** Exceptions.  Exception classes raised by the modelled code. *)
Inductive exn : Type :=
| EStruct            (* struct.error *)
| EType              (* TypeError *)
| EValue             (* ValueError *)
| EIndex             (* IndexError *)
| EKey               (* KeyError *)
| EName              (* NameError *)
| EAttr              (* AttributeError *)
| EUnbound           (* UnboundLocalError *)
| EUnicode           (* UnicodeEncodeError *)
| EBinascii          (* binascii.Error *)
| EOverflow          (* OverflowError *)
| EZeroDiv           (* ZeroDivisionError *)
| EOS                (* OSError and friends raised by the operating system *)
| ESockTimeout       (* socket.timeout *)
| EModbusClient      (* modbus.client.ModbusClientError *)
| EModbusTimeout     (* modbus.client.ModbusClientTimeout *)
| EModbusException (code : Z)  (* modbus.client.ModbusClientException *)
| EModbusMap         (* modbus.mbmap.ModbusMapError *)
| ESunSpec           (* util.SunSpecError *)
| ESunSpecClient     (* client.SunSpecClientError *)
| ESunSpecData       (* data.SunSpecDataError *)
| EParse             (* xml.etree.ElementTree.ParseError *)
| EFuel.             (* not a Python exception: a loop of the model ran out of fuel, i.e. the
                        program was still running after that many iterations *)

(** [except modbus.ModbusClientError] catches the class and its two subclasses
    (modbus/client.py:51-58). [ModbusMapError] is not one of them (mbmap.py:69). *)
Definition is_modbus_client_error (e : exn) : bool :=
  match e with
  | EModbusClient | EModbusTimeout | EModbusException _ => true
  | _ => false
  end.

(** [except SunSpecError] (util.py:31) also catches SunSpecClientError (client.py:41). *)
Definition is_sunspec_error (e : exn) : bool :=
  match e with ESunSpec | ESunSpecClient => true | _ => false end.

(** [except SunSpecClientError]. *)
Definition is_sunspec_client_error (e : exn) : bool :=
  match e with ESunSpecClient => true | _ => false end.

Inductive res (A : Type) : Type :=
| Ok (a : A)
| Raise (e : exn).
Arguments Ok {A} a.
Arguments Raise {A} e.

Definition bind {A B} (m : res A) (f : A -> res B) : res B :=
  match m with Ok a => f a | Raise e => Raise e end.

Notation "'let!' x ':=' m 'in' k" := (bind m (fun x => k))
  (at level 200, x pattern, m at level 100, k at level 200, right associativity).

Definition is_ok {A} (r : res A) : bool := match r with Ok _ => true | Raise _ => false end.

(** ** Bytes and text.  [bytes] and [str] are lists of integers: byte values
    resp. Unicode code points. *)
Definition bytes := list Z.
Definition str := list Z.

Definition is_byte (b : Z) : Prop := 0 <= b < 256.
Definition is_byteb (b : Z) : bool := (0 <=? b) && (b <? 256).

(** Literals: the code points of a Coq string. *)
Fixpoint lit (s : string) : str :=
  match s with
  | EmptyString => []
  | String c r => Z.of_nat (nat_of_ascii c) :: lit r
  end.

Fixpoint eqb_list (a b : list Z) : bool :=
  match a, b with
  | [], [] => true
  | x :: a', y :: b' => (x =? y) && eqb_list a' b'
  | _, _ => false
  end.

Lemma eqb_list_eq (a b : list Z) : eqb_list a b = true <-> a = b.
Proof.
  revert b; induction a as [|x a IH]; intros [|y b]; cbn; try (split; congruence).
  rewrite andb_true_iff, Z.eqb_eq, IH. split; [intros [-> ->]|intros [= -> ->]]; auto.
Qed.

Lemma eqb_list_refl (a : list Z) : eqb_list a a = true.
Proof. apply eqb_list_eq; reflexivity. Qed.

Lemma eqb_list_neq (a b : list Z) : eqb_list a b = false <-> a <> b.
Proof.
  rewrite <- eqb_list_eq. destruct (eqb_list a b); split; congruence.
Qed.

(** ** Slices [l[a:b]] for [0 <= a]; out-of-range bounds are clipped as in Python.
    Callers of the model only use non-negative bounds unless stated. *)
Definition zlen {A} (l : list A) : Z := Z.of_nat (length l).
Definition ztake {A} (n : Z) (l : list A) : list A := firstn (Z.to_nat n) l.
Definition zdrop {A} (n : Z) (l : list A) : list A := skipn (Z.to_nat n) l.
Definition slice {A} (a b : Z) (l : list A) : list A := ztake (b - a) (zdrop a l).

(** Python [l[a:b]] for arbitrary integers (negative indices count from the end). *)
Definition py_bound {A} (i : Z) (l : list A) : Z :=
  let n := zlen l in
  if i <? 0 then Z.max 0 (n + i) else Z.min i n.
Definition py_slice {A} (a b : Z) (l : list A) : list A :=
  slice (py_bound a l) (py_bound b l) l.

Definition znth (i : Z) (l : list Z) : Z := nth (Z.to_nat i) l 0.

(** ** dicts: association lists in insertion order. *)
Section Dict.
  Context {A : Type}.
  Fixpoint dget (k : str) (d : list (str * A)) : option A :=
    match d with
    | [] => None
    | (k', v) :: r => if eqb_list k k' then Some v else dget k r
    end.
  (** assignment [d[k] = v]: replaces in place or appends *)
  Fixpoint dset (k : str) (v : A) (d : list (str * A)) : list (str * A) :=
    match d with
    | [] => [(k, v)]
    | (k', v') :: r => if eqb_list k k' then (k', v) :: r else (k', v') :: dset k v r
    end.
End Dict.

(** ** struct (Python standard library) *)

(** the [n] low base-256 digits of [z], most significant first *)
Fixpoint be_bytes (n : nat) (z : Z) : bytes :=
  match n with
  | O => []
  | S k => be_bytes k (z / 256) ++ [z mod 256]
  end.

Definition be_int (d : bytes) : Z := fold_left (fun acc b => acc * 256 + b) d 0.

Definition int_lo (w : nat) (sgn : bool) : Z := if sgn then - (2 ^ (8 * Z.of_nat w - 1)) else 0.
Definition int_hi (w : nat) (sgn : bool) : Z :=
  if sgn then 2 ^ (8 * Z.of_nat w - 1) - 1 else 2 ^ (8 * Z.of_nat w) - 1.

(** [struct.pack('>?', v)] for an integer format of [w] bytes *)
Definition pack_int (w : nat) (sgn : bool) (v : Z) : res bytes :=
  if (int_lo w sgn <=? v) && (v <=? int_hi w sgn)
  then Ok (be_bytes w v) else Raise EStruct.

(** [struct.unpack('>?', d)[0]] *)
Definition unpack_int (w : nat) (sgn : bool) (d : bytes) : res Z :=
  if (length d =? w)%nat
  then let u := be_int d in
       Ok (if sgn && (2 ^ (8 * Z.of_nat w - 1) <=? u) then u - 2 ^ (8 * Z.of_nat w) else u)
  else Raise EStruct.

(** [struct.pack(str(n) + 's', s)]: truncates or pads with NUL; a negative size gives
    the format '-1s', which struct rejects. *)
Definition pack_s (n : Z) (s : bytes) : res bytes :=
  if n <? 0 then Raise EStruct
  else Ok (ztake n s ++ repeat 0 (Z.to_nat (n - zlen s))).

(** [bytes(s, 'latin-1')] *)
Definition latin1_encode (s : str) : res bytes :=
  if forallb is_byteb s then Ok s else Raise EUnicode.

(** ** Numbers produced by Python 3 true division of an int by 2 or 4.
    [NF h] is the float h/2.  Exact for magnitudes below 2^52. *)
Inductive num : Type := NI (z : Z) | NF (h : Z).

(** twice the value *)
Definition num2 (x : num) : Z := match x with NI z => 2 * z | NF h => h end.
Definition num_add (x y : num) : num :=
  match x, y with NI a, NI b => NI (a + b) | _, _ => NF (num2 x + num2 y) end.
Definition num_sub (x y : num) : num :=
  match x, y with NI a, NI b => NI (a - b) | _, _ => NF (num2 x - num2 y) end.
Definition num_double (x : num) : num :=
  match x with NI a => NI (2 * a) | NF h => NF (2 * h) end.
Definition num_ltb (x y : num) : bool := num2 x <? num2 y.
Definition num_leb (x y : num) : bool := num2 x <=? num2 y.
Definition num_eqb (x y : num) : bool := num2 x =? num2 y.
(** [int(x)]: truncation toward zero *)
Definition num_int (x : num) : Z := match x with NI z => z | NF h => Z.quot h 2 end.
(** use as a slice index: floats are a TypeError *)
Definition num_index (x : num) : res Z := match x with NI z => Ok z | NF _ => Raise EType end.
