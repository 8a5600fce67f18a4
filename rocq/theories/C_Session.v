(** * C_Session: property C97: a program gets the same results on every transport.

    [program] (M_Session) is any program that uses a ClientDevice: each next operation may depend on all earlier results,
    exceptions included.  [ideal_client] (S_Session) is a device that is just a memory and records the requests it gets. *)
From Coq Require Import String.
From Verif Require C_Scan C_Client C_Device C_Rtu C_Tcp C_Scale.
From Verif Require Import Py P_List M_Util M_Float M_Suns M_Point M_Wire M_Rtu M_Tcp S_Tcp M_Mbmap S_Mbmap M_Device M_Client S_Client M_Scan S_Scan S_Stack P_Stack P_Stack2 C_Stack
  M_Wrapper M_Session S_Session P_Session.

(** ** on any device that behaves as a memory for the registers lo .. hi-1 *)
Theorem C97_any_device :
  forall D (c : sclient D) rel lo hi wmax, implements (scl_dev c) rel lo hi wmax -> connects c rel ->
  forall E lfuel fuel types next n s mem cd,
  rel s mem ->
  forall mem' log cd' results, program ideal_client E lfuel fuel types n next (mem, []) cd [] = ((mem', log), cd', results) ->
  Forall (within lo hi wmax) log ->
  exists s', program c E lfuel fuel types n next s cd [] = (s', cd', results) /\ rel s' mem'.
Proof.
  intros D c rel lo hi wmax HI HC E lfuel fuel types next n s mem cd HR mem' log cd' results EP HW.
  pose proof (program_agrees c rel lo hi wmax HI HC ideal_client eq_refl E lfuel fuel types next n (mem, []) cd []) as H.
  unfold agrees3 in H. rewrite EP in H. exact (proj2 (H HW) s HR).
Qed.
Print Assumptions C97_any_device.

Lemma rtu_connects {D} (dev : sdev D) slave rel : connects (rtu_client dev false true slave) rel.
Proof. exact I. Qed.
Lemma tcp_connects {D} (srv : server D) (regs : D -> S_Modbus.memory) slave : tcp_accepts srv regs -> connects (tcp_client srv false slave) (tcp_rel regs).
Proof.
  intros HA s mem R. split.
  - destruct (tcp_opening srv regs slave s mem HA R) as (s0 & HO & R0). unfold opens in HO. cbn [scl_connect tcp_client] in HO. exists s0. auto.
  - eapply (tcp_closing srv regs slave); [exact R|]. reflexivity.
Qed.
Lemma map_connects rel : connects map_client rel.
Proof. exact I. Qed.

(** ** an RTU slave, a TCP server and a map that hold the same registers: a program whose requests are for registers that
    all three have gets the same results (values and exceptions), builds the same objects, and leaves the same registers *)
Theorem C97_same_on_every_transport :
  forall D1 (dev : sdev D1) (regs1 : D1 -> S_Modbus.memory) slave1,
  forall D2 (srv : server D2) (regs2 : D2 -> S_Modbus.memory) slave2 lim,
  S_Modbus.serves_reads dev regs1 slave1 3 -> S_Modbus.serves_writes dev regs1 slave1 lim -> (forall s, S_Modbus.mem_ok (regs1 s)) -> is_byte slave1 ->
  tcp_serves_reads srv regs2 slave2 3 -> tcp_serves_writes srv regs2 slave2 lim -> tcp_accepts srv regs2 -> is_byte slave2 -> lim <= 125 ->
  forall lo hi, 0 <= lo -> hi <= 65536 ->
  forall E lfuel fuel types next n s1 k s2 m mem cd,
  k = SConn [] \/ k = SNone ->
  (forall x, mem x = byte_view (regs1 s1) x) -> (forall x, mem x = byte_view (regs2 s2) x) -> map_holds lo hi m mem ->
  forall mem' log cd' results, program ideal_client E lfuel fuel types n next (mem, []) cd [] = ((mem', log), cd', results) ->
  Forall (within lo hi lim) log ->
  exists s1' k' s2' m',
    program (rtu_client dev false true slave1) E lfuel fuel types n next s1 cd [] = (s1', cd', results) /\
    program (tcp_client srv false slave2) E lfuel fuel types n next (k, s2) cd [] = ((k', s2'), cd', results) /\
    program map_client E lfuel fuel types n next m cd [] = (m', cd', results) /\
    (forall x, mem' x = byte_view (regs1 s1') x) /\ (forall x, mem' x = byte_view (regs2 s2') x) /\ map_holds lo hi m' mem'.
Proof.
  intros D1 dev regs1 slave1 D2 srv regs2 slave2 lim R1 R2 R3 R4 T1 T2 T3 T4 HL lo hi HLO HHI E lfuel fuel types next n s1 k s2 m mem cd HK H1 H2 H3 mem' log cd' results EP HW.
  assert (HW' : Forall (within 0 65536 lim) log).
  { eapply Forall_impl; [|exact HW]. intros [a c|a d]; cbn [within]; intros H; decompose [and] H; repeat split; try lia; assumption. }
  destruct (C97_any_device _ _ _ _ _ _ (rtu_implements_small dev regs1 slave1 lim R1 R2 R3 R4 HL) (rtu_connects dev slave1 _) E lfuel fuel types next n s1 mem cd H1 _ _ _ _ EP HW') as (s1' & E1 & R1').
  destruct (C97_any_device _ _ _ _ _ _ (tcp_implements srv regs2 slave2 lim T1 T2 T3 T4 HL) (tcp_connects srv regs2 slave2 T3) E lfuel fuel types next n (k, s2) mem cd (conj HK H2) _ _ _ _ EP HW') as ([k' s2'] & E2 & R2').
  destruct (C97_any_device _ _ _ _ _ _ (map_implements lo hi lim) (map_connects _) E lfuel fuel types next n m mem cd H3 _ _ _ _ EP HW) as (m' & E3 & R3').
  exists s1', k', s2', m'. split; [exact E1|]. split; [exact E2|]. split; [exact E3|]. split; [exact R1'|]. split; [apply R2'|exact R3'].
Qed.
Print Assumptions C97_same_on_every_transport.

(** ** which programs stay within the registers of the device: scanning a SunSpec map and reading all its points do *)
Definition ideal_rel (lo hi : Z) (s : ideal) (mem : memory) : Prop := mem_eq (fst s) mem /\ Forall (within lo hi 0) (snd s).
Lemma ideal_implements lo hi : implements (scl_dev ideal_client) (ideal_rel lo hi) lo hi 0.
Proof.
  constructor.
  - intros [m lg] mem a n [R F] A B C. cbn [scl_dev ideal_client dv_read fst snd] in *. exists (m, lg ++ [QRead a n]). split.
    + replace (mem_bytes mem a n) with (mem_bytes m a n); [reflexivity|]. unfold mem_bytes. apply map_ext. intros x. apply R.
    + split; [exact R|]. apply Forall_app. split; [exact F|]. constructor; [|constructor]. cbn [within]. lia.
  - intros s mem a d _ _ _ _ H1 H2. lia.
  - intros s mem mem' [R F] HX. split; [|exact F]. intros x. rewrite R. apply HX.
Qed.
Theorem C97_scan_and_read_within :
  forall E lfuel fuel types, loads_end lfuel types ->
  forall mem b l e, byte_memory mem -> sunspec_map mem b l e -> first_marker mem b -> e < 65536 -> Forall (readable lfuel types) l -> (length l < fuel)%nat ->
  forall next, next [] = Some (OpScan None) -> (forall r, next [r] = Some OpReadAll) -> (forall r r', next [r; r'] = None) ->
  exists mem' log cd, program ideal_client E lfuel fuel types 3 next (mem, []) new_cdevice [] = ((mem', log), cd, [RUnit (Ok tt); RUnit (Ok tt)]) /\
    (forall x, mem' x = mem x) /\
    Forall (within (if b =? 40000 then 40000 else 0) (if b =? 40000 then e + 1 else 65536) 0) log.
Proof.
  intros E lfuel fuel types HLE mem b l e HB HM HF HE HR HN next N0 N1 N2. destruct (first_marker_range _ _ HF) as [Hb HPRE].
  set (lo := if b =? 40000 then 40000 else 0). set (hi := if b =? 40000 then e + 1 else 65536).
  assert (HP : exists pre post, [40000; 0; 50000] = pre ++ b :: post /\ Forall (fun a => lo <= a /\ a + 3 <= hi /\ mem_bytes mem a 2 <> [83; 117; 110; 83]) pre).
  { destruct HPRE as (pre & post & EP & HPR). unfold lo, hi. destruct (Z.eqb_spec b 40000) as [->|NE].
    - exists [], [0; 50000]. auto.
    - exists pre, post. auto. }
  assert (HB2 : lo <= b /\ e < hi) by (unfold lo, hi; destruct (Z.eqb_spec b 40000); lia).
  destruct (end_to_end ideal_client (ideal_rel lo hi) lo hi 0 (ideal_implements lo hi)
    (fun s mem H => ex_intro _ s (conj eq_refl H)) (fun s s' mem H E => eq_ind_r (fun x => ideal_rel lo hi x mem) H E) lfuel types None HLE ltac:(discriminate)
    mem b l e fuel (mem, []) (conj (fun x => eq_refl) (Forall_nil _)) HB HM HP (proj1 HB2) (proj2 HB2) HR HN)
    as (s1 & ms & s2 & ms' & A & _ & C & _ & [RM RF] & _).
  cbn [program]. rewrite N0. cbn [do_op]. rewrite A. cbn [app]. rewrite N1. cbn [do_op cd_models]. rewrite C. cbn [app]. rewrite N2.
  exists (fst s2), (snd s2), (with_models (mkCD (Some b) ms) ms'). split; [now rewrite <- surjective_pairing|]. split; [exact RM|exact RF].
Qed.
Print Assumptions C97_scan_and_read_within.

(** ** an example: a program that scans, reads everything, looks at a value and, depending on it, assigns another one, writes
    the model, writes one point on its own, reads again, asks for a model and a register that do not exist.  The requests
    it makes are within the limits, and the three transports give what the ideal device gives. *)
Definition ex_next (b : Z) (hist : list obs) : option op :=
  match hist with
  | [] => Some (OpScan None)
  | [_] => Some OpReadAll
  | [_; _] => Some (OpGet 0 0 (lit "C"%string))
  | [_; _; RValue (Ok (VInt v))] => Some (OpSet 0 0 (lit "C"%string) (VInt (v + 1)))
  | [_; _; _; _] => Some (OpWrite 0)
  | [_; _; _; _; _] => Some (OpSet 0 0 (lit "A"%string) (VInt 5))
  | [_; _; _; _; _; _] => Some (OpPointWrite 0 0 (lit "A"%string))
  | [_; _; _; _; _; _; _] => Some (OpRead 0)
  | [_; _; _; _; _; _; _; _] => Some (OpGet 0 0 (lit "C"%string))
  | [_; _; _; _; _; _; _; _; _] => Some (OpGet 0 0 (lit "A"%string))
  | [_; _; _; _; _; _; _; _; _; _] => Some (OpRead 5)
  | [_; _; _; _; _; _; _; _; _; _; _] => Some (OpRawRead b 2)
  | _ => None
  end.
Definition ex_results : list obs :=
  [RUnit (Ok tt); RUnit (Ok tt); RValue (Ok (VInt 3)); RUnit (Ok tt); RUnit (Ok tt); RUnit (Ok tt); RUnit (Ok tt); RUnit (Ok tt);
   RValue (Ok (VInt 4)); RValue (Ok (VFlt (S754_finite false 5629499534213120 (-50)))) (* 5.0 *); RUnit (Raise EIndex); RBytes (Ok (Some [83; 117; 110; 83]))].
Definition ex_run {D} (b : Z) (c : sclient D) (s : D) := program c C_Scale.env_ex 10 10 C_Device.ex_types 20 (ex_next b) s new_cdevice [].
Definition within_b (lo hi wmax : Z) (q : request) : bool :=
  match q with
  | QRead a n => (lo <=? a) && (0 <=? n) && (a + n <=? hi)
  | QWrite a d => (lo <=? a) && (a + zlen d / 2 <=? hi) && (zlen d mod 2 =? 0) && (0 <? zlen d) && (zlen d <=? 2 * wmax) && forallb (fun x => (0 <=? x) && (x <? 256)) d
  end.
Example C97_ex : let r := ex_run 50000 ideal_client (byte_view ex_regs, []) in
  snd r = ex_results /\ forallb (within_b 0 65536 125) (snd (fst (fst r))) = true /\
  snd (ex_run 50000 (rtu_client C_Rtu.ex_dev false true 1) ex_regs) = ex_results /\
  snd (ex_run 50000 (tcp_client C_Tcp.ex_srv false 1) (SNone, ex_regs)) = ex_results.
Proof. vm_compute. repeat split. Qed.
(** at 40000, also for a mapped device (C_Stack.ex_map; C73_ex_map_holds: it holds these registers) *)
Example C97_ex_mapped : let r := ex_run 40000 ideal_client (C_Scan.scan_mem 40000, []) in
  snd r = ex_results /\ forallb (within_b 40000 40019 125) (snd (fst (fst r))) = true /\ snd (ex_run 40000 map_client ex_map) = ex_results.
Proof. vm_compute. repeat split. Qed.
