(** * M_Files: where the library looks for files: Modbus maps (modbus/mbmap.py:165-175), PICS documents
    (core/device.py:121-156) and the availability check for model definitions (core/device.py:935-944).

    open() looks relative names up in the working directory, which is part of [fs].  The parser is ET.fromstring. *)
From Coq Require Import String.
From Verif Require Import Py M_Xml M_Path M_Suns M_Float M_Mbmap M_Device M_Smdx M_Pics.

(** open(name, 'r').read() *)
Definition open_read (fs : fsys) (name : str) : res bytes :=
  match fs name with Some (FFile d _) => Ok d | _ => Raise EOS end.

(** ** ModbusMap.from_xml(filename, pathlist), mbmap.py:165-177, 293-294: the offset of the message is 0 here *)
Definition mbmap_data (fs : fsys) (pathlist : option (list str)) (name : str) : res bytes :=
  match pathlist with Some ps => pathlist_read fs ps name | None => open_read fs name end.
Definition map_from_file (E : pyenv) (fs : fsys) (parse : bytes -> res xml) (m : mbmap) (name : str) (pathlist : option (list str))
  : mbmap * res unit :=
  match (let! d := mbmap_data fs pathlist name in parse d) with
  | Raise _ => (m, Raise EModbusMap)
  | Ok root => map_from_xml E m root
  end.

(** ** Device.from_pics(filename=, pathlist=), device.py:121-148 *)
(** try: pathlist.read(filename) except NameError: pass *)
Definition try_paths (fs : fsys) (ps : option (list str)) (name : str) : res bytes :=
  match ps with
  | None => Ok []
  | Some ps => match pathlist_read fs ps name with Raise EName => Ok [] | r => r end
  end.
Definition pics_data (fs : fsys) (supplied current : option (list str)) (name : str) : res bytes :=
  let! d1 := try_paths fs supplied name in
  let! d2 := match d1 with [] => try_paths fs current name | _ => Ok d1 end in
  match d2 with [] => open_read fs name | _ => Ok d2 end.
Definition device_from_file (E : pyenv) (fuel : nat) (types : Z -> res modeltype) (fs : fsys) (parse : bytes -> res xml)
  (d : device) (name : str) (supplied current : option (list str)) : device * res unit :=
  match (let! c := pics_data fs supplied current name in parse c) with
  | Raise _ => (d, Raise ESunSpec)
  | Ok root => device_from_doc E fuel types d root
  end.

(** ** check_for_models, device.py:935-944: any exception becomes an Exception; the pathlist argument is not used *)
Definition check_for_models (V : tenv) (st : tstate) (pathlist : option (list str)) : tstate * bool :=
  let '(st', r) := model_type_get V st 1 in (st', match r with Ok _ => true | Raise _ => false end).
