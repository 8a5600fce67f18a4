(** * C_Line: property C85 (nothing left over from an earlier exchange influences a later one). *)
From Verif Require Import Py P_List M_Crc M_Wire M_Rtu M_Line S_Crc S_Modbus.

Definition erase {D A} (x : port D * A) : D * A := (po_dev (fst x), snd x).
Lemma line_read1_same {D} (dev : sdev D) trace slave addr count op d rx :
  erase (line_read1 dev trace slave addr count op (mkPort d rx)) = rtu_read1 dev trace slave addr count op d.
Proof.
  unfold line_read1, rtu_read1, port_write, flush_input. destruct (rtu_read_req slave op addr count) as [req|]; [|reflexivity].
  destruct trace; [reflexivity|]. cbn [po_dev po_rx]. destruct (dev d req) as [d' [[b sc fin]|]]; [|reflexivity].
  unfold erase, rtu_read_response. cbn [fst snd po_dev w_bytes w_sched w_end app]. reflexivity.
Qed.
Lemma line_write1_same {D} (dev : sdev D) slave addr data d rx :
  erase (line_write1 dev slave addr data (mkPort d rx)) = rtu_write1 dev slave addr data d.
Proof.
  unfold line_write1, rtu_write1, port_write, flush_input. destruct (rtu_write_req slave addr data) as [req|]; [|reflexivity].
  cbn [po_dev po_rx]. destruct (dev d req) as [d' [[b sc fin]|]]; [|reflexivity].
  unfold erase, rtu_write_response. cbn [fst snd po_dev w_bytes w_sched w_end app]. reflexivity.
Qed.
Lemma line_read_same {D} (dev : sdev D) trace is_open slave addr count op max_count d rx :
  erase (line_read dev trace is_open slave addr count op max_count (mkPort d rx)) = rtu_read dev trace is_open slave addr count op max_count d.
Proof.
  unfold line_read, rtu_read. destruct is_open; [|reflexivity]. generalize (S (Z.to_nat count)), 0, (@nil Z). intros fuel. revert count d rx.
  induction fuel as [|fuel IH]; intros count d rx off resp; [reflexivity|]. cbn [line_read_loop rtu_read_loop]. destruct (0 <? count); [|reflexivity].
  cbv zeta. set (rc := if max_count <? count then max_count else count).
  pose proof (line_read1_same dev trace slave (addr + off) rc op d rx) as H. destruct (line_read1 dev trace slave (addr + off) rc op (mkPort d rx)) as [[d1 rx1] r1].
  unfold erase in H. cbn [fst snd po_dev] in H. rewrite <- H. destruct r1 as [[|x l]|e]; try reflexivity. apply IH.
Qed.
Lemma line_write_same {D} (dev : sdev D) is_open slave addr data max_count d rx :
  erase (line_write dev is_open slave addr data max_count (mkPort d rx)) = rtu_write dev is_open slave addr data max_count d.
Proof.
  unfold line_write, rtu_write. destruct is_open; [|reflexivity]. generalize (S (length data)), 0, (zlen data). intros fuel. revert d rx.
  induction fuel as [|fuel IH]; intros d rx off c2; [reflexivity|]. cbn [line_write_loop rtu_write_loop]. destruct (0 <? c2); [|reflexivity].
  cbv zeta. set (wc := if 2 * max_count <? c2 then 2 * max_count else c2). set (ch := slice (2 * off) (2 * off + wc) data).
  pose proof (line_write1_same dev slave (addr + off) ch d rx) as H. destruct (line_write1 dev slave (addr + off) ch (mkPort d rx)) as [[d1 rx1] r1].
  unfold erase in H. cbn [fst snd po_dev] in H. rewrite <- H. destruct r1 as [u|e]; [|reflexivity]. apply IH.
Qed.

(** Whatever is in the input buffer - surplus bytes of an earlier answer, a late answer, noise - a read or write returns
    the same and the slaves end up the same. *)
Theorem C85_read_ignores_leftovers :
  forall D (dev : sdev D) trace is_open slave addr count op max_count d rx rx',
  erase (line_read dev trace is_open slave addr count op max_count (mkPort d rx)) =
  erase (line_read dev trace is_open slave addr count op max_count (mkPort d rx')).
Proof. intros. now rewrite !line_read_same. Qed.
Print Assumptions C85_read_ignores_leftovers.
Theorem C85_write_ignores_leftovers :
  forall D (dev : sdev D) is_open slave addr data max_count d rx rx',
  erase (line_write dev is_open slave addr data max_count (mkPort d rx)) =
  erase (line_write dev is_open slave addr data max_count (mkPort d rx')).
Proof. intros. now rewrite !line_write_same. Qed.
Print Assumptions C85_write_ignores_leftovers.
(** so all that is proved of M_Rtu (C24-C30, C83, C84), where every request has an input of its own, holds of the port *)
Theorem C85_port_refines_exchanges :
  forall D (dev : sdev D) trace is_open slave max_count d rx,
  (forall addr count op, erase (line_read dev trace is_open slave addr count op max_count (mkPort d rx)) = rtu_read dev trace is_open slave addr count op max_count d) /\
  (forall addr data, erase (line_write dev is_open slave addr data max_count (mkPort d rx)) = rtu_write dev is_open slave addr data max_count d).
Proof. intros. split; intros; [apply line_read_same|apply line_write_same]. Qed.
Print Assumptions C85_port_refines_exchanges.
(** an answer with surplus bytes behind it: the surplus stays in the buffer until the next request *)
Theorem C85_surplus_stays :
  forall D (dev : sdev D) slave addr count op d d' rx req w w' resp exc,
  rtu_read_req slave op addr count = Ok req -> dev d req = (d', Some w) -> rtu_recv recv_fuel read_total [] 5 false None w = Ok (resp, exc, w') ->
  po_rx (fst (line_read1 dev false slave addr count op (mkPort d rx))) = w_bytes w'.
Proof.
  intros D dev slave addr count op d d' rx req w w' resp exc HR HD HW. unfold line_read1, port_write, flush_input. rewrite HR. cbn [po_dev po_rx].
  rewrite HD. destruct w as [b sc fin]. cbn [w_bytes w_sched w_end app]. rewrite HW. reflexivity.
Qed.
Print Assumptions C85_surplus_stays.
(** noise behind an answer stays in the buffer until the next request *)
Example C85_ex :
  let dev : sdev unit := fun s _ => (s, Some (mkWire (with_crc [1; 3; 2; 0xAB; 0xCD] ++ [9; 9; 9]) [] WEmpty)) in
  let '(p, r) := line_read dev false true 1 0 1 3 125 (mkPort tt [7; 7]) in
  po_rx p = [9; 9; 9] /\ r = Ok (Some [0xAB; 0xCD]) /\ snd (line_read dev false true 1 0 1 3 125 p) = Ok (Some [0xAB; 0xCD]).
Proof. vm_compute. auto. Qed.
