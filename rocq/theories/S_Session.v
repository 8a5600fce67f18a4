(** * S_Session: an ideal device that holds a memory and records the requests it gets (specification, C97). *)
From Verif Require Import Py M_Mbmap M_Client M_Scan S_Client.

(** a read of [n] registers from [a] on, or a write of the bytes [d] from register [a] on *)
Inductive request := QRead (a n : Z) | QWrite (a : Z) (d : bytes).
(** the registers lo .. hi-1 exist; a write is of 1 to [wmax] whole registers *)
Definition within (lo hi wmax : Z) (q : request) : Prop :=
  match q with
  | QRead a n => lo <= a /\ 0 <= n /\ a + n <= hi
  | QWrite a d => lo <= a /\ a + zlen d / 2 <= hi /\ zlen d mod 2 = 0 /\ 0 < zlen d <= 2 * wmax /\ Forall is_byte d
  end.
Definition ideal : Type := memory * list request.
(** the ideal device answers every request from its memory *)
Definition ideal_client : sclient ideal :=
  mkScl ideal (mkDev ideal (fun s a n => ((fst s, snd s ++ [QRead a n]), Ok (Some (mem_bytes (fst s) a n))))
                           (fun s a d => ((mem_store (fst s) a d, snd s ++ [QWrite a d]), Ok tt))) None.
(** connecting works and does not change what the device holds; nor does disconnecting *)
Definition connects {D} (c : sclient D) (rel : D -> memory -> Prop) : Prop :=
  match scl_connect c with
  | None => True
  | Some (conn, disc) => forall s mem, rel s mem -> (exists s', conn s = (s', Ok tt) /\ rel s' mem) /\ rel (disc s) mem
  end.
