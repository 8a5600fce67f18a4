(** * C_Hexmap: property C77 (hexadecimal register files, ModbusMap.from_hex). *)
From Coq Require Import String.
From Verif Require S_Path P_Path.
From Verif Require Import Py P_List S_Codec M_Suns M_Xml M_Path M_Mbmap M_Hexmap S_Hexmap S_Mbmap P_Hexmap C_Mbmap.

(** a new map loaded from a well-formed file has one read-write block at the base address with the bytes of the file *)
Theorem C77_hex_file_loaded :
  forall m text d, hex_file text d -> d <> [] -> m_regs m = [] ->
  exists m', map_from_hex m (Some text) = (m', Ok tt) /\ m_base m' = m_base m /\ m_func m' = m_func m /\
    exists g, m_regs m' = [g] /\ num2 (g_offset g) = 0 /\ num2 (g_count g) = zlen d /\ g_data g = Some d /\ g_access g = lit "rw"%string.
Proof.
  intros m text d H Hd HR. rewrite (from_hex_ok m text d H Hd), HR. eexists. split; [reflexivity|]. split; [reflexivity|]. split; [reflexivity|].
  exists (hex_block d). repeat split.
Qed.
Print Assumptions C77_hex_file_loaded.
(** reads that end before the last byte of the file return the bytes of the file *)
Theorem C77_reads_partial :
  forall m text d m' b x n op, hex_file text d -> d <> [] -> m_regs m = [] -> map_from_hex m (Some text) = (m', Ok tt) ->
  base_int (m_base m) = Ok b -> op = 0 \/ op = m_func m -> 0 <= x -> 0 <= n -> 2 * (x + n) < zlen d ->
  map_read m' (b + x) n op = Ok (slice (2 * x) (2 * x + 2 * n) d).
Proof.
  intros m text d m' b x n op H Hd HR HL HB Hop Hx Hn Hlt. rewrite (from_hex_ok m text d H Hd), HR in HL.
  apply pair_equal_spec in HL as [HL _]. subst m'. cbn [app].
  rewrite (hex_read (with_regs m [hex_block d]) d b x n op eq_refl HB Hop Hn).
  destruct (Z.eqb_spec n 0) as [->|]; [|].
  - unfold slice. replace (2 * x + 2 * 0 - 2 * x) with 0 by lia. reflexivity.
  - destruct (Z.ltb_spec x 0); [lia|]. destruct (Z.leb_spec (zlen d) (2 * x)); [lia|]. cbn [orb].
    destruct (Z.ltb_spec (2 * (x + n)) (zlen d)); [reflexivity|lia].
Qed.
Print Assumptions C77_reads_partial.
(** false in general: whatever the file, no read that includes the last register succeeds *)
Theorem C77_last_register_refuted :
  forall m text d m' b x n op, hex_file text d -> d <> [] -> m_regs m = [] -> map_from_hex m (Some text) = (m', Ok tt) ->
  base_int (m_base m) = Ok b -> op = 0 \/ op = m_func m -> 0 <= x -> 2 * x < zlen d <= 2 * (x + n) ->
  map_read m' (b + x) n op = Raise EType.
Proof.
  intros m text d m' b x n op H Hd HR HL HB Hop Hx Hlt. rewrite (from_hex_ok m text d H Hd), HR in HL.
  apply pair_equal_spec in HL as [HL _]. subst m'. cbn [app].
  rewrite (hex_read (with_regs m [hex_block d]) d b x n op eq_refl HB Hop) by lia.
  destruct (Z.eqb_spec n 0); [lia|]. destruct (Z.ltb_spec x 0); [lia|]. destruct (Z.leb_spec (zlen d) (2 * x)); [lia|]. cbn [orb].
  destruct (Z.ltb_spec (2 * (x + n)) (zlen d)); [lia|reflexivity].
Qed.
Print Assumptions C77_last_register_refuted.
(** addresses outside the file do not exist *)
Theorem C77_outside :
  forall m text d m' b x n op, hex_file text d -> d <> [] -> m_regs m = [] -> map_from_hex m (Some text) = (m', Ok tt) ->
  base_int (m_base m) = Ok b -> op = 0 \/ op = m_func m -> 0 < n -> x < 0 \/ zlen d <= 2 * x ->
  map_read m' (b + x) n op = Raise EModbusMap.
Proof.
  intros m text d m' b x n op H Hd HR HL HB Hop Hn Hx. rewrite (from_hex_ok m text d H Hd), HR in HL.
  apply pair_equal_spec in HL as [HL _]. subst m'. cbn [app].
  rewrite (hex_read (with_regs m [hex_block d]) d b x n op eq_refl HB Hop) by lia.
  destruct (Z.eqb_spec n 0); [lia|]. destruct (Z.ltb_spec x 0); [reflexivity|].
  destruct (Z.leb_spec (zlen d) (2 * x)); [reflexivity|lia].
Qed.
Print Assumptions C77_outside.
(** writes anywhere in the block succeed, and the registers before the last one then read as written *)
Theorem C77_write_then_read :
  forall m text d m' b x data, hex_file text d -> d <> [] -> m_regs m = [] -> map_from_hex m (Some text) = (m', Ok tt) ->
  base_int (m_base m) = Ok b -> 0 <= x -> zlen data mod 2 = 0 -> 2 * x + zlen data <= zlen d ->
  exists m2, map_write m' (b + x) data = (m2, Ok tt) /\
  forall y n op, op = 0 \/ op = m_func m -> 0 <= y -> 0 <= n -> 2 * (y + n) < zlen d ->
    map_read m2 (b + y) n op = Ok (slice (2 * y) (2 * y + 2 * n) (ztake (2 * x) d ++ data ++ zdrop (2 * x + zlen data) d)).
Proof.
  intros m text d m' b x data H Hd HR HL HB Hx HE Hlt. rewrite (from_hex_ok m text d H Hd), HR in HL.
  apply pair_equal_spec in HL as [HL _]. subst m'. cbn [app].
  rewrite (hex_write (with_regs m [hex_block d]) d b x data eq_refl HB Hx HE Hlt). eexists. split; [reflexivity|].
  intros y n op Hop Hy Hn Hy2. set (d' := ztake (2 * x) d ++ data ++ zdrop (2 * x + zlen data) d).
  assert (HZ : zlen d' = zlen d).
  { unfold d'. pose proof (zlen_nonneg data). rewrite !zlen_app, zlen_ztake_le, zlen_zdrop by lia. lia. }
  rewrite (hex_read (with_regs (with_regs m [hex_block d]) [hex_block d']) d' b y n op eq_refl HB Hop Hn), HZ.
  destruct (Z.eqb_spec n 0) as [->|].
  - unfold slice. replace (2 * y + 2 * 0 - 2 * y) with 0 by lia. reflexivity.
  - destruct (Z.ltb_spec y 0); [lia|]. destruct (Z.leb_spec (zlen d) (2 * y)); [lia|]. cbn [orb].
    destruct (Z.ltb_spec (2 * (y + n)) (zlen d)); [reflexivity|lia].
Qed.
Print Assumptions C77_write_then_read.
(** every failure is a ModbusMapError and leaves the map as it was; a missing file, a file without data and a file with
    a word that is not a hexadecimal number from 0 to 255 fail *)
Theorem C77_failure_changes_nothing :
  forall m file m' e, map_from_hex m file = (m', Raise e) -> m' = m /\ e = EModbusMap.
Proof. exact from_hex_error. Qed.
Print Assumptions C77_failure_changes_nothing.
Theorem C77_missing_or_empty_rejected :
  forall m, map_from_hex m None = (m, Raise EModbusMap) /\
  forall text, hex_file text [] -> map_from_hex m (Some text) = (m, Raise EModbusMap).
Proof. exact (fun m => conj eq_refl (from_hex_empty m)). Qed.
Print Assumptions C77_missing_or_empty_rejected.
Theorem C77_malformed_rejected :
  forall m pre l post a w b,
  Forall (fun c => c <> 10 /\ c <> 13) l -> (pre = [] \/ exists x, pre = x ++ [10]) -> (post = [] \/ exists c y, post = c :: y /\ (c = 10 \/ c = 13)) ->
  l = a ++ w ++ b -> Forall (fun c => ~ In c S_Path.white_space) w -> w <> [] -> (a = [] \/ exists x c, a = x ++ [c] /\ In c S_Path.white_space) ->
  (b = [] \/ exists c y, b = c :: y /\ In c S_Path.white_space) -> hd 0 l <> 35 ->
  (forall v, hex_integer w v -> ~ 0 <= v <= 255) ->
  map_from_hex m (Some (pre ++ l ++ post)) = (m, Raise EModbusMap).
Proof.
  intros m pre l post a w b H1 H2 H3 H4 H5 H6 H7 H8 Hh HV.
  assert (HS : Forall (fun c => is_space c = false) w).
  { eapply Forall_impl; [|exact H5]. intros c HC. cbn beta in *. destruct (is_space c) eqn:E; [|reflexivity]. now apply P_Path.is_space_spec in E. }
  apply (from_hex_bad m pre l post a w b); auto; [| |intros v Hv; apply (int_of_hex_spec w v HS) in Hv; now apply HV].
  - destruct H7 as [H7|(x & c & H7 & HC)]; [now left|right]. exists x, c. split; [exact H7|now apply P_Path.is_space_spec].
  - destruct H8 as [H8|(c & x & H8 & HC)]; [now left|right]. exists c, x. split; [exact H8|now apply P_Path.is_space_spec].
Qed.
Print Assumptions C77_malformed_rejected.
(** a map that already has blocks: the file's block is put behind them although it starts at offset 0, so the blocks are
    no longer in order and the file's registers are hidden *)
Theorem C77_nonempty_map_refuted :
  (forall m text d m', hex_file text d -> d <> [] -> m_regs m <> [] -> ascending (m_regs m) -> map_from_hex m (Some text) = (m', Ok tt) ->
     ~ ascending (m_regs m')) /\
  exists text m', hex_file text [9; 9; 8; 8; 7; 7] /\ map_from_hex map1 (Some text) = (m', Ok tt) /\ map_read m' 40000 1 3 = Ok [0; 1].
Proof.
  split.
  - intros m text d m' H Hd HR HA HL. rewrite (from_hex_ok m text d H Hd) in HL. apply pair_equal_spec in HL as [HL _]. subst m'.
    cbn [m_regs with_regs]. intros [HO _]. destruct HA as [_ HA]. destruct (m_regs m) as [|g l]; [congruence|].
    inversion HA as [|? ? [H1 H2] _]; subst. cbn [app] in HO. inversion HO as [|? ? HF _]; subst.
    apply Forall_app in HF as [_ HF]. inversion HF as [|? ? HC _]; subst. cbn [hex_block g_offset num2] in HC. lia.
  - exists (lit "09 09 08 08 07 07"%string). eexists. split; [|split; [vm_compute; reflexivity|vm_compute; reflexivity]].
    apply hf_last, hl_bytes.
    assert (D : forall v, 7 <= v <= 9 -> digit_of 16 (48 + v) v) by (intros v Hv; unfold digit_of; lia).
    assert (Z0 : digit_of 16 48 0) by (unfold digit_of; lia).
    apply (bl_byte [] 48 57 0 9 _ _ (Forall_nil _) Z0 (D 9 ltac:(lia))); [right; eauto|].
    apply (bl_byte [32] 48 57 0 9 _ _ ltac:(repeat constructor) Z0 (D 9 ltac:(lia))); [right; eauto|].
    apply (bl_byte [32] 48 56 0 8 _ _ ltac:(repeat constructor) Z0 (D 8 ltac:(lia))); [right; eauto|].
    apply (bl_byte [32] 48 56 0 8 _ _ ltac:(repeat constructor) Z0 (D 8 ltac:(lia))); [right; eauto|].
    apply (bl_byte [32] 48 55 0 7 _ _ ltac:(repeat constructor) Z0 (D 7 ltac:(lia))); [right; eauto|].
    apply (bl_byte [32] 48 55 0 7 _ _ ltac:(repeat constructor) Z0 (D 7 ltac:(lia))); [left; reflexivity|].
    constructor. constructor.
Qed.
Print Assumptions C77_nonempty_map_refuted.

(** a file of two lines and a comment *)
Example C77_ex :
  let text := lit "# registers"%string ++ [10] ++ lit "12 aF"%string ++ [13; 10] ++ lit "34 00"%string ++ [10] in
  hex_file text [0x12; 0xAF; 0x34; 0] /\
  map_read (fst (map_from_hex empty_map (Some text))) 40000 1 3 = Ok [0x12; 0xAF] /\
  map_read (fst (map_from_hex empty_map (Some text))) 40001 1 3 = Raise EType /\
  map_read (fst (map_from_hex empty_map (Some text))) 40002 1 3 = Raise EModbusMap.
Proof.
  cbv zeta. split; [|vm_compute; auto].
  assert (D : forall c v, In (c, v) [(49, 1); (50, 2); (97, 10); (70, 15); (51, 3); (52, 4); (48, 0)] -> digit_of 16 c v).
  { intros c v H. unfold digit_of. repeat (destruct H as [H|H]; [apply pair_equal_spec in H as [<- <-]; lia|]). destruct H. }
  apply (hf_line (lit "# registers"%string) [] [10]); [|now left|].
  - apply hl_comment. repeat constructor; discriminate.
  - apply (hf_line (lit "12 aF"%string) [0x12; 0xAF] [13; 10]); [|now right|].
    + apply hl_bytes. apply (bl_byte [] 49 50 1 2 _ _ (Forall_nil _)); [apply D; cbn; tauto..|right; eauto|].
      apply (bl_byte [32] 97 70 10 15); [repeat constructor|apply D; cbn; tauto..|left; reflexivity|]. constructor. constructor.
    + apply (hf_line (lit "34 00"%string) [0x34; 0] [10] [] []); [|now left|].
      * apply hl_bytes. apply (bl_byte [] 51 52 3 4 _ _ (Forall_nil _)); [apply D; cbn; tauto..|right; eauto|].
        apply (bl_byte [32] 48 48 0 0); [repeat constructor|apply D; cbn; tauto..|left; reflexivity|]. constructor. constructor.
      * apply hf_last, hl_bytes. constructor. constructor.
Qed.
(** a malformed word *)
Example C77_malformed_ex : map_from_hex empty_map (Some (lit "12 1FF"%string)) = (empty_map, Raise EModbusMap).
Proof.
  apply (C77_malformed_rejected empty_map [] (lit "12 1FF"%string) [] (lit "12 "%string) (lit "1FF"%string) []);
    [repeat constructor; discriminate|now left|now left|reflexivity|apply Forall_forall; intros c HC HW; unfold S_Path.white_space in HW; cbn in HC, HW; lia|discriminate| |now left|discriminate|].
  - right. exists (lit "12"%string), 32. split; [reflexivity|]. unfold S_Path.white_space; cbn [In]; lia.
  - intros v H. apply (int_of_hex_spec (lit "1FF"%string)) in H; [|repeat constructor]. vm_compute in H. apply Ok_inj in H. subst v. lia.
Qed.
Example C77_malformed_letter_ex : map_from_hex empty_map (Some (lit "g"%string)) = (empty_map, Raise EModbusMap).
Proof.
  apply (C77_malformed_rejected empty_map [] (lit "g"%string) [] [] (lit "g"%string) []);
    [repeat constructor; discriminate|now left|now left|reflexivity|apply Forall_forall; intros c HC HW; unfold S_Path.white_space in HW; cbn in HC, HW; lia|discriminate|now left|now left|discriminate|].
  intros v H. apply (int_of_hex_spec (lit "g"%string)) in H; [|repeat constructor]. vm_compute in H. discriminate.
Qed.
