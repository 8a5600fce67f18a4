(** * S_Torn: devices whose writes fail half way (specification, C86). *)
From Verif Require Import Py M_Suns M_Device M_Client S_Client.

(** A device, with its transport, that stores a prefix of the data it is sent, and all of it if it reports success.  [mem s]
    is what it holds. *)
Definition stores_prefix {D} (dv : mdev D) (mem : D -> memory) : Prop :=
  forall s a d s' r, zlen d mod 2 = 0 -> Forall is_byte d -> dv_write dv s a d = (s', r) ->
  exists k, 0 <= k <= zlen d /\ (forall x, mem s' x = mem_store (mem s) a (ztake k d) x) /\ (r = Ok tt -> k = zlen d).
(** ... or that may even report success without having stored everything *)
Definition stores_some {D} (dv : mdev D) (mem : D -> memory) : Prop :=
  forall s a d s' r, zlen d mod 2 = 0 -> Forall is_byte d -> dv_write dv s a d = (s', r) ->
  exists k, 0 <= k <= zlen d /\ forall x, mem s' x = mem_store (mem s) a (ztake k d) x.
(** the byte a modified point's value has at a byte address *)
Definition new_byte (m : model) (x v : Z) : Prop :=
  exists p d, In p (modified m) /\ encoding p d /\ covers p x /\ v = znth (x - 2 * p_addr p) d.
