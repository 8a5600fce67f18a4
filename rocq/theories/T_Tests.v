(** * T_Tests: the project's own unit tests (/repo/sunspec/core/test), replayed in the model.

    These are not proofs of properties.  They check the model against outcomes that the authors of the code recorded: every
    [Example] below is one test method, with its inputs and expected results; documents are in T_Docs (generated).  Left out:
    tests that need model definitions that are not in /repo (test_sunspec_client_device_3, test_device_models_smdx,
    test_model_load_symbol_id_conflicts); the definition of model 1 (common) is not in /repo either and is written out here. *)
From Coq Require Import String.
From Verif Require Import Py M_Util M_Float M_Suns M_Point M_Xml.
From Verif Require M_Mbmap M_Device M_Smdx M_Pics M_NotEq M_Client M_Scan M_Wrapper M_Wire M_Rtu M_Tcp M_Data M_Crc.
From Verif Require Import T_Docs.
Local Open Scope string_scope. Local Open Scope list_scope. Local Open Scope Z_scope.

Definition hx (s : string) : bytes := match b16decode (lit s) with Ok b => b | Raise _ => [] end.

(** ** test_util.py *)
Example data_to_s16_test : data_to_s16 (hx "1234") = Ok 4660 /\ data_to_s16 (hx "9234") = Ok (-28108).
Proof. vm_compute. auto. Qed.
Example data_to_u16_test : data_to_u16 (hx "1234") = Ok 4660 /\ data_to_u16 (hx "9234") = Ok 37428.
Proof. vm_compute. auto. Qed.
Example data_to_s32_test : data_to_s32 (hx "12345678") = Ok 305419896 /\ data_to_s32 (hx "92345678") = Ok (-1842063752).
Proof. vm_compute. auto. Qed.
Example data_to_u32_test : data_to_u32 (hx "12345678") = Ok 305419896 /\ data_to_u32 (hx "92345678") = Ok 2452903544.
Proof. vm_compute. auto. Qed.
Example data_to_s64_test : data_to_s64 (hx "1234567812345678") = Ok 1311768465173141112 /\ data_to_s64 (hx "9234567812345678") = Ok (-7911603571681634696).
Proof. vm_compute. auto. Qed.
Example data_to_u64_test : data_to_u64 (hx "1234567812345678") = Ok 1311768465173141112 /\ data_to_u64 (hx "9234567812345678") = Ok 10535140502027916920.
Proof. vm_compute. auto. Qed.
Example data_to_ipv6addr_test :
  data_to_ipv6addr (hx "00000000000000000000000000000000") = None /\
  data_to_ipv6addr (hx "123456789ABCDEF0123456789ABCDEF0") = Some (lit "12345678:9ABCDEF0:12345678:9ABCDEF0") /\
  data_to_ipv6addr (hx "0100000000000000") = None.
Proof. vm_compute. auto. Qed.
Example data_to_eui48_test : data_to_eui48 (hx "0000000000000000") = None /\ data_to_eui48 (hx "0000123456789ABC") = Some (lit "12:34:56:78:9A:BC").
Proof. vm_compute. auto. Qed.
(** float(z), for z in range *)
Definition fl (z : Z) : flt := match float_of_int z with Ok f => f | Raise _ => S754_nan end.
Example data_to_float_test : data_to_float (hx "7FC00000") = Ok None /\ data_to_float (hx "447A0000") = Ok (Some (fl 1000)) /\ data_to_float (hx "C47A0000") = Ok (Some (fl (-1000))).
Proof. vm_compute. auto. Qed.
Example data_to_double_test :
  data_to_double (hx "7FF8000000000000") = Ok None /\ data_to_double (hx "408F400000000000") = Ok (Some (fl 1000)) /\ data_to_double (hx "C08F400000000000") = Ok (Some (fl (-1000))).
Proof. vm_compute. auto. Qed.
Example data_to_str_test : data_to_str (hx "53756E53706563205465737400") = lit "SunSpec Test".
Proof. vm_compute. auto. Qed.
Example s16_to_data_test : s16_to_data 4660 = Ok (hx "1234") /\ s16_to_data (-28108) = Ok (hx "9234").
Proof. vm_compute. auto. Qed.
Example u16_to_data_test : u16_to_data 4660 = Ok (hx "1234") /\ u16_to_data 37428 = Ok (hx "9234").
Proof. vm_compute. auto. Qed.
Example s32_to_data_test : s32_to_data 305419896 = Ok (hx "12345678") /\ s32_to_data (-1842063752) = Ok (hx "92345678").
Proof. vm_compute. auto. Qed.
Example u32_to_data_test : u32_to_data 305419896 = Ok (hx "12345678") /\ u32_to_data 2452903544 = Ok (hx "92345678").
Proof. vm_compute. auto. Qed.
Example s64_to_data_test : s64_to_data 1311768465173141112 = Ok (hx "1234567812345678") /\ s64_to_data (-7911603571681634696) = Ok (hx "9234567812345678").
Proof. vm_compute. auto. Qed.
Example u64_to_data_test : u64_to_data 1311768465173141112 = Ok (hx "1234567812345678") /\ u64_to_data 10535140502027916920 = Ok (hx "9234567812345678").
Proof. vm_compute. auto. Qed.
Example ipv6addr_to_data_test : ipv6addr_to_data (lit "12345678:9ABCDEF0:12345678:9ABCDEF0") None = Ok (hx "123456789ABCDEF0123456789ABCDEF0").
Proof. vm_compute. auto. Qed.
Example float_to_data32_test : float_to_data32 (fl 1000) = Ok (hx "447A0000") /\ float_to_data32 (fl (-1000)) = Ok (hx "C47A0000").
Proof. vm_compute. auto. Qed.
Example float_to_data_test : float_to_data (fl 1000) = Ok (hx "408F400000000000") /\ float_to_data (fl (-1000)) = Ok (hx "C08F400000000000").
Proof. vm_compute. auto. Qed.
Example str_to_data_test : str_to_data (lit "SunSpec Test") None = Ok (hx "53756E53706563205465737400").
Proof. vm_compute. auto. Qed.
Example eui48_to_data_test : eui48_to_data (lit "12:34:56:78:9A:BC") = Ok (hx "0000123456789ABC").
Proof. vm_compute. auto. Qed.

(** ** test_modbus_client.py: the fake serial port hands out the prepared bytes and records what is written *)
Definition fake_serial (input : bytes) : M_Wire.sdev bytes := fun out req => ((out ++ req)%list, Some (M_Wire.mkWire input [] M_Wire.WEmpty)).
Example modbus_client_device_rtu_read_test :
  M_Rtu.rtu_read (fake_serial (hx "01030453756E5396F0")) false true 1 40000 2 3 125 [] = (hx "01039C400002EB8F", Ok (Some (lit "SunS"))).
Proof. vm_compute. reflexivity. Qed.
Example modbus_client_device_rtu_write_test :
  M_Rtu.rtu_write (fake_serial (hx "01109C4000026E4C")) true 1 40000 (lit "ABCD") 125 [] = (hx "01109C40000204414243448BB2", Ok tt).
Proof. vm_compute. reflexivity. Qed.
(** the fake socket: the answer is waiting, requests are recorded *)
Definition fake_socket : M_Tcp.server bytes := M_Tcp.mkServer bytes (fun d => (d, true)) (fun out req => ((out ++ req)%list, Some (M_Wire.mkWire [] [] M_Wire.WEmpty))).
Example modbus_client_device_tcp_read_test :
  M_Tcp.tcp_read fake_socket 1 125 false 40000 2 3 (M_Tcp.SConn (hx "00000000000701030453756E53"), []) = ((M_Tcp.SConn [], hx "00000000000601039C400002"), Ok (lit "SunS")).
Proof. vm_compute. reflexivity. Qed.
Example modbus_client_device_tcp_write_test :
  M_Tcp.tcp_write fake_socket 1 125 false 40000 (lit "ABCD") (M_Tcp.SConn (hx "00000000000601109C400002"), []) =
  ((M_Tcp.SConn [], hx "00000000000B01109C4000020441424344"), Ok tt).
Proof. vm_compute. reflexivity. Qed.

(** ** Python's float(), repr() and math.pow() for the few numbers in the tests: decimal numbers with few digits, whole
    floats, powers of ten up to 10^22 (where one correctly rounded operation gives the result) *)
Fixpoint split_dot (s : str) : str * str :=
  match s with [] => ([], []) | c :: r => if (c =? 46)%Z then ([], r) else let '(a, b) := split_dot r in (c :: a, b)%list end.
Definition test_float_parse (s : str) : option flt :=
  let '(a, b) := split_dot s in
  match int_of_str (a ++ b)%list with
  | Ok z => match fdiv (fl z) (fl (10 ^ zlen b)) with Ok f => Some f | Raise _ => None end
  | Raise _ => None
  end.
Definition test_env : pyenv := {|
  float_repr := fun f => match int_trunc f with Ok z => (str_of_int z ++ lit ".0")%list | Raise _ => lit "?" end;
  float_parse := test_float_parse;
  pow10 := fun n => if 0 <=? n then float_of_int (10 ^ n) else fdiv (fl 1) (fl (10 ^ (- n))) |}.
Notation E := test_env.

(** ** test_data.py *)
Example data_test :
  let fmt := fun _ : value => Ok (lit "2013-12-20T17:29:24Z") in   (* time.strftime of 1387560564.48 *)
  let none := VNone in
  match M_Data.device_add fmt M_Data.new_sdata (VStr (lit "00:00:00:00:00:01")) (VStr (lit "Man")) (VStr (lit "Mod")) (VStr (lit "SN"))
          (VFlt (fl 1387560564)) none none none none with
  | Ok s =>
    match M_Data.sd_devices s with
    | [d] =>
      let d := M_Data.model_add E d (VInt 1) none none in
      match M_Data.dd_models d with
      | [m] =>
        let m := M_Data.point_add m (VStr (lit "P1")) (VInt 23) none none none none none in
        let m := M_Data.point_add m (VStr (lit "P2")) (VInt 24) none none none none none in
        M_Data.to_xml_str E (M_Data.mkSD none [M_Data.with_models d [m]]) =
        Ok (M_Data.DE (lit "sunSpecData") [] none
             [M_Data.DE (lit "d") [(lit "lid", VStr (lit "00:00:00:00:00:01")); (lit "man", VStr (lit "Man")); (lit "mod", VStr (lit "Mod"));
                                   (lit "sn", VStr (lit "SN")); (lit "t", VStr (lit "2013-12-20T17:29:24Z"))] none
               [M_Data.DE (lit "m") [(lit "id", VStr (lit "1"))] none
                 [M_Data.DE (lit "p") [(lit "id", VStr (lit "P1"))] (VStr (lit "23")) [];
                  M_Data.DE (lit "p") [(lit "id", VStr (lit "P2"))] (VStr (lit "24")) []]]])
      | _ => False
      end
    | _ => False
    end
  | Raise _ => False
  end.
Proof. vm_compute. reflexivity. Qed.

(** the truth value of [element.text] *)
Definition has_text (t : option str) : bool := match t with Some (_ :: _) => true | _ => false end.
(** ** test_modbus_mbmap.py *)
Import M_Mbmap.
Definition is_some_text (x : option xml) : bool := match x with Some y => has_text (x_text y) | None => false end.
Definition fresh_map : mbmap := match new_map V_HOLDING 40000 with Ok m => m | Raise _ => mkMap 0 (BInt 0) None None None None [] end.
Definition loaded (doc : xml) : mbmap := fst (map_from_xml E fresh_map doc).
Example modbus_mbmap_from_xml_test :
  forallb (fun doc => is_ok (snd (map_from_xml E fresh_map doc)))
    [doc_mbmap_test_device_1; doc_mbmap_test_device_1_a; doc_mbmap_test_device_1_b; doc_mbmap_test_device_1_c; doc_mbmap_test_device_1_d] = true /\
  map (map_not_equal (loaded doc_mbmap_test_device_1))
    (map loaded [doc_mbmap_test_device_1_a; doc_mbmap_test_device_1_b; doc_mbmap_test_device_1_c; doc_mbmap_test_device_1_d]) = [Ok false; Ok false; Ok false; Ok false].
Proof. vm_compute. auto. Qed.
Example modbus_mbmap_regs_add_test :
  match new_map V_HOLDING 999 with Ok m => is_ok (snd (regs_add m None (Some 40072) 1 ACCESS_R)) | Raise _ => false end = true.
Proof. vm_compute. reflexivity. Qed.
Example modbus_mbmap_to_xml_test :
  match map_to_xml (loaded doc_mbmap_test_device_1) with
  | Ok x => option_map x_text (xfind (lit "regs") x) = option_map x_text (xfind (lit "regs") doc_mbmap_test_device_1_processed)
            /\ is_some_text (xfind (lit "regs") x) = true
  | Raise _ => False
  end.
Proof. vm_compute. auto. Qed.

(** ** test_device.py *)
Import M_Device.
(** smdx_00001.xml (common model, not in /repo), without its strings *)
Definition pt (id offset type len access : string) : xml :=
  XE (lit "point") ([(lit "id", lit id); (lit "offset", lit offset); (lit "type", lit type)] ++ (if String.eqb len "" then [] else [(lit "len", lit len)])
                    ++ [(lit "mandatory", lit "true")] ++ (if String.eqb access "" then [] else [(lit "access", lit access)])) None None [].
Definition doc_common : xml :=
  XE (lit "sunSpecModels") [(lit "v", lit "1")] None None
    [XE (lit "model") [(lit "id", lit "1"); (lit "len", lit "66"); (lit "name", lit "common")] None None
      [XE (lit "block") [(lit "len", lit "66")] None None
        [pt "Mn" "0" "string" "16" ""; pt "Md" "16" "string" "16" ""; pt "Opt" "32" "string" "8" ""; pt "Vr" "40" "string" "8" "";
         pt "SN" "48" "string" "16" ""; pt "DA" "64" "uint16" "" "rw"; pt "Pad" "65" "pad" "" ""]]].
(** smdx_63001.xml is not in /repo; the document in test_device.py stands for it, with one correction: acc64_u is declared
    int64 there, but the device documents give it 0 and the tests expect "not implemented", as for the type acc64 *)
Fixpoint correct_acc64_u (x : xml) : xml :=
  match x with
  | XE tag attrs text tail kids =>
    XE tag (if match dget (lit "id") attrs with Some i => eqb_list i (lit "acc64_u") | None => false end then dset (lit "type") (lit "acc64") attrs else attrs)
       text tail (map correct_acc64_u kids)
  end.
Definition types (id : Z) : res modeltype :=
  if id =? 1 then M_Smdx.model_from_smdx 1 doc_common
  else if id =? 63001 then M_Smdx.model_from_smdx 2 (correct_acc64_u doc_pointtype_smdx_1)
  else if id =? 65000 then M_Smdx.model_from_smdx 3 doc_smdx_65000
  else Raise ESunSpec.
Example device_modeltype_test :
  match M_Smdx.model_from_smdx 0 doc_pointtype_smdx_1 with Ok t => mt_id t = Some 63001 /\ mt_len t = Some 152 | Raise _ => False end.
Proof. vm_compute. auto. Qed.
Example device_pointtype_test :
  match map (M_Smdx.point_from_smdx []) (x_children doc_pointtype_smdx_2) with
  | Ok (p, _) :: r => pt_id p = lit "p_int16" /\ pt_offset p = 0 /\ pt_type p = Tint16 /\ pt_len p = 1 /\ forallb is_ok r = true
  | _ => False
  end.
Proof. vm_compute. auto 6. Qed.
(** PointType('point_1', 0, type), BlockType(type, len), ModelType(1) *)
Definition new_pt (id : string) (t : ptype) : pointtype := mkPT (lit id) 0 t 0 (lit "false") (lit "r") None None None None None [].
Example device_not_equal_test :
  let p1 := new_pt "point_1" Tint16 in
  let p2 := new_pt "point_2" Tuint16 in
  let b1 := mkBT Fixed (BInt 20) None [p1; p2] in
  let b2 := mkBT Repeating (BInt 30) None [] in
  let t oid := mkMT oid (Some 1) None None None None None b1 (Some b2) [] in
  M_NotEq.pointtype_not_equal 0 1 false p1 (Some p1) = false /\ M_NotEq.blocktype_not_equal 0 1 b1 (Some b1) = false /\
  M_NotEq.blocktype_not_equal 0 1 b2 (Some b2) = false /\ M_NotEq.modeltype_not_equal (t 1) (Some (t 2)) = false.
Proof. vm_compute. auto. Qed.

(** *** create_test_device_1 *)
Definition mloaded (id len : Z) : model := fst (model_load 1000 types (new_model id 0 len)).
Fixpoint upd {A} (n : nat) (f : A -> A) (l : list A) : list A :=
  match l, n with [], _ => [] | x :: r, O => f x :: r | x :: r, S k => x :: upd k f r end.
Definition assign (id : str) (v : value) (l : list point) : list point :=
  map (fun p => if eqb_list (p_id p) id then M_Pics.with_base p v else p) l.
Definition assign1 (ms : list model) (x : nat * nat * bool * str * value) : list model :=
  let '(mi, bi, sf, id, v) := x in
  upd mi (fun m => M_Client.with_blocks m (upd bi (fun b =>
    if sf : bool then M_Pics.with_lists b (b_points b) (assign id v (b_sfs b)) else M_Pics.with_lists b (assign id v (b_points b)) (b_sfs b)) (md_blocks m))) ms.
(** "update scale factor values in points" *)
Definition take_sf (m : model) : model :=
  let fixed := fixed_sfs (md_blocks m) in
  M_Client.with_blocks m (map (fun b => M_Pics.with_lists b
    (map (fun p => match M_Client.link_value (b_sfs b) fixed (p_link p) with Some v => M_Pics.with_sf p v | None => p end) (b_points b)) (b_sfs b)) (md_blocks m)).
Definition test_device_1 : list model :=
  map take_sf (fold_left assign1 test_device_1_values [mloaded 1 0; mloaded 63001 188]).
Definition pics (doc : xml) : M_Pics.device * res unit := M_Pics.device_from_doc E 1000 types (M_Pics.new_device 40000) doc.
Definition pics_models (doc : xml) : list model := M_Pics.d_models (fst (pics doc)).
Example device_from_pics_test :
  snd (pics doc_pics_test_device_1) = Ok tt /\ M_NotEq.device_not_equal (pics_models doc_pics_test_device_1) test_device_1 = Ok false /\
  map (fun m => length (md_blocks m)) test_device_1 = [1%nat; 4%nat].
Proof. vm_compute. auto. Qed.
Example device_to_pics_test :
  match M_Pics.device_to_pics E false (fst (pics doc_pics_test_device_1)) with
  | Ok e => let '(d2, r) := M_Pics.device_from_pics E 1000 types (M_Pics.new_device 40000) e in
            r = Ok tt /\ M_NotEq.device_not_equal (pics_models doc_pics_test_device_1) (M_Pics.d_models d2) = Ok false
  | Raise _ => False
  end.
Proof. vm_compute. auto. Qed.

(** *** values: the point of a model of the device, its value, its value after an assignment *)
Definition point_of (ms : list model) (mi : nat) (id : string) : point :=
  match nth_error ms mi with
  | Some m => match find_point (lit id) (M_Wrapper.model_points m) with Some p => p | None => new_point (new_pt "" Tpad) 0 end
  | None => new_point (new_pt "" Tpad) 0
  end.
Definition value_of (p : point) : res value := value_getter E (p_base p) (p_sf p).
Definition set_get (p : point) (v : value) : res value := let! q := M_Client.point_set E v p in value_of q.
Example device_value_get_test : value_of (point_of (pics_models doc_pics_test_device_1) 1 "int16_4") = Ok (VFlt (fl (-20))).
Proof. vm_compute. reflexivity. Qed.
Example device_value_set_test : set_get (point_of (pics_models doc_pics_test_device_1) 1 "int16_4") (VInt (-180)) = Ok (VFlt (fl (-180))).
Proof. vm_compute. reflexivity. Qed.
(** point.value_sf = -1 and point.value = 84.3; the value is within 0.001 of 84.3 (here: the same float) *)
Example device_value_set_rounding_test :
  match test_float_parse (lit "84.3") with
  | Some f => match set_get (M_Pics.with_sf (point_of (pics_models doc_pics_test_device_1) 1 "int16_1") (VInt (-1))) (VFlt f) with
              | Ok (VFlt g) => SFltb (SFabs (SFsub 53 1024 g f)) (match test_float_parse (lit "0.001") with Some x => x | None => fl 0 end) = true
              | _ => False
              end
  | None => False
  end.
Proof. vm_compute. reflexivity. Qed.
Example device_common_len_65_test :
  value_of (point_of (pics_models doc_pics_test_device_2) 0 "Md") = Ok (VStr (lit "TestDevice-2")) /\
  set_get (point_of (pics_models doc_pics_test_device_2) 1 "int16_4") (VInt (-180)) = Ok (VFlt (fl (-180))).
Proof. vm_compute. auto. Qed.
Example device_constant_sf_test : value_of (point_of (pics_models doc_pics_test_device_1) 1 "uint32_4") = Ok (VFlt (fl 190)).
Proof. vm_compute. reflexivity. Qed.
Example block_past_end_of_model_test : snd (model_load 1000 types (new_model 65000 0 0)) = Raise ESunSpec.
Proof. vm_compute. reflexivity. Qed.

(** ** test_client.py: a mapped device *)
Import M_Client.
Definition test_map : mbmap := loaded doc_mbmap_test_device_1.
Definition scanned : mbmap * M_Scan.cdevice * res unit := M_Scan.scan M_Scan.map_client 1000 types None 1000 test_map M_Scan.new_cdevice.
Definition scanned_models : list model := M_Scan.cd_models (snd (fst scanned)).
Definition read_all : mbmap * list model * res unit := device_read_points (M_Scan.scl_dev M_Scan.map_client) test_map scanned_models.
Definition read_models : list model := snd (fst read_all).
Example client_device_test :
  snd scanned = Ok tt /\ snd read_all = Ok tt /\ M_NotEq.device_not_equal (pics_models doc_pics_test_device_1) read_models = Ok false.
Proof. vm_compute. auto. Qed.

(** test_sunspec_client_device_1: what the test does with d.model_63001, step by step *)
Inductive tstep := SRead | SWrite | SSet (id : string) (v : value) | SExpect (id : string) (v : value).
Definition same (a : res value) (b : value) : bool := match a with Ok v => negb (M_NotEq.value_ne v b) | Raise _ => false end.
Fixpoint steps (l : list tstep) (s : mbmap) (m : model) : bool :=
  match l with
  | [] => true
  | SRead :: r => match read_points (M_Scan.scl_dev M_Scan.map_client) s m with (s', m', Ok _) => steps r s' m' | _ => false end
  | SWrite :: r => match write_points (M_Scan.scl_dev M_Scan.map_client) s m with (s', m', Ok _) => steps r s' m' | _ => false end
  | SSet id v :: r => match M_Wrapper.wmodel_set E m (lit id) v with Ok m' => steps r s m' | Raise _ => false end
  | SExpect id v :: r => same (M_Wrapper.script_get E m 0 (lit id)) v && steps r s m
  end.
Definition client_steps : list tstep :=
  [(* int16 read and write *)
   SRead; SExpect "int16_4" (VInt (-20)); SSet "int16_4" (VInt 330); SWrite; SRead; SExpect "int16_4" (VInt 330);
   (* string read and write *)
   SExpect "string" (VStr (lit "12345678")); SSet "string" (VStr (lit "abcdefg")); SWrite; SRead; SExpect "string" (VStr (lit "abcdefg"));
   (* write multiple *)
   SRead; SExpect "uint16_3" (VInt 65524); SExpect "uint16_4" (VInt 60); SExpect "uint16_5" (VInt 7);
   SSet "uint16_3" (VInt 65525); SSet "uint16_4" (VInt 70); SSet "uint16_5" (VInt 8); SWrite; SRead;
   SExpect "uint16_3" (VInt 65525); SExpect "uint16_4" (VInt 70); SExpect "uint16_5" (VInt 8);
   (* write multiple *)
   SRead; SExpect "uint16_3" (VInt 65525); SExpect "uint16_4" (VInt 70); SExpect "uint16_5" (VInt 8);
   SSet "uint16_3" (VInt 65524); SSet "uint16_5" (VInt 7); SWrite; SRead;
   SExpect "uint16_3" (VInt 65524); SExpect "uint16_4" (VInt 70); SExpect "uint16_5" (VInt 7)].
Definition nth_model (n : nat) : model := nth n read_models (new_model 0 0 0).
(** the wrapper: its attributes, and the two values of d.common *)
Definition wrapped : (M_Wrapper.rclasses * M_Wrapper.wdev) * res unit := M_Wrapper.wrapper_init types [] [] (Ok read_models).
Example sunspec_client_device_1_test :
  snd wrapped = Ok tt /\ M_Wrapper.wd_models (snd (fst wrapped)) = [M_Wrapper.NName (lit "common"); M_Wrapper.NName (lit "model_63001")] /\
  M_Wrapper.script_get E (nth_model 0) 0 (lit "Mn") = Ok (VStr (lit "SunSpecTest")) /\ M_Wrapper.script_get E (nth_model 0) 0 (lit "SN") = Ok (VStr (lit "sn-123456789")) /\
  steps client_steps test_map (nth_model 1) = true.
Proof. vm_compute. auto 6. Qed.
