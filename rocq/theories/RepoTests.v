(** The project's own unit tests (Source/Code/ArduinoTemplateLibrary.Tests and AvrTemplateLibrary.Tests),
    replayed on the model: one Example for each test method, with the test's inputs and the outcomes it
    asserts.  The tests run on a PC, so an int has 32 bits here.  Not replayed: DelegateTest and FuncTest
    (wrappers around function pointers, not modelled), ArrayTest (checks that code compiles) and PIDTest
    (its method is disabled).  At the end, the example sketches that only touch memory. *)
Require Import ZArith List Bool String Ascii.
Import ListNotations.
From Verif Require Import Base RingModel ArrayModel BitModel RangeModel TaskModel TimeModel MidiModel TextModel RealModel
  UrmModel MotorModel UiModel IteratorModel EditModel AvrModel ArduinoModel LayoutModel.
Open Scope Z_scope.
Local Notation "x <- a ;; b" := (match a with Some x => b | None => None end) (at level 60, right associativity).
Local Open Scope list_scope.

Definition chars (s : string) : list Z := map (fun c => Z.of_nat (nat_of_ascii c)) (list_ascii_of_string s).
Definition upto (n : nat) : list Z := map Z.of_nat (seq 0 n).

(** ** RingBufferTest.cpp: RingBuffer<unsigned char, 256>; memory is not initialised. *)
Definition rb0 : ring Z := mkRing (fun _ => 77) 0 0.
Definition rb_writes (n : nat) : list (@ring_op Z) := map (fun i => RWrite (u8 i)) (upto n).
Definition rb_pairs (n : nat) : list (@ring_op Z) := flat_map (fun i => [RWrite (u8 i); RRead]) (upto n).
Definition rb_results (ops : list (@ring_op Z)) : option (list (@ring_res Z)) :=
  p <- ring_run 256 rb0 ops ;; Some (map fst (snd p)).
Definition rb_ok (n : nat) : list (@ring_res Z) := repeat (ResWrite true) n.
Definition rb_ok_pairs (n : nat) : list (@ring_res Z) := flat_map (fun i => [ResWrite true; ResRead (u8 i)]) (upto n).

Example RingBuffer_InitWithData_getLength_Test :
  (p <- ring_run 256 rb0 (rb_writes 255) ;; Some (map fst (snd p), ring_length 256 (fst p))) = Some (rb_ok 255, 255).
Proof. lazy; reflexivity. Qed.
Example RingBuffer_InitWithData_ProtectAgainstOverrun_Test :
  rb_results (rb_writes 255 ++ [RWrite 255]) = Some (rb_ok 255 ++ [ResWrite false]).
Proof. lazy; reflexivity. Qed.
Example RingBuffer_InitWithData_ProtectAgainstOverrun_WithWrapAround_Test :
  rb_results (rb_pairs 640 ++ rb_writes 255 ++ [RWrite 255]) = Some (rb_ok_pairs 640 ++ rb_ok 255 ++ [ResWrite false]).
Proof. lazy; reflexivity. Qed.
Example RingBuffer_InitWithData_Read_Test :
  rb_results (rb_writes 255 ++ repeat RRead 255) = Some (rb_ok 255 ++ map ResRead (upto 255)).
Proof. lazy; reflexivity. Qed.
Example RingBuffer_InitWithData_WrapAround_Test : rb_results (rb_pairs 640) = Some (rb_ok_pairs 640).
Proof. lazy; reflexivity. Qed.

(** ** BufferedInputStreamTest.cpp *)
Example BufferedInputStream_InitWithData_Read_ProducesBytes :
  (p <- bis_run 256 (fun x => x) rb0 (rb_writes 128 ++ repeat RRead 129) ;; Some (snd p))
  = Some (map inl (rb_ok 128) ++ map inr (upto 128) ++ [inr (-1)]).
Proof. lazy; reflexivity. Qed.

(** ** DelaysTest.cpp, TimeTest.cpp: millis() of the fake Arduino.cpp advances by 13 at each call. *)
Example Delays_Wait_ForDelay :
  (p <- dl_run (dl_init 4) [DUpdate 13; DWait 1 13; DUpdate 13; DIsWaiting 1; DWait 1 13] ;; Some (snd p))
  = Some [false; false; false; true; true].
Proof. lazy; reflexivity. Qed.
Example Time_MillisecondsTime :
  let (ticks, delta) := time_update 0 13 in time_ms false 0 + delta = time_ms false ticks.
Proof. lazy; reflexivity. Qed.

(** ** FixedArrayTest.cpp, FixedArrayRefTest.cpp: FixedArray<int, 2>, an int[2]. *)
Example FixedArray_IsValidIndex_InvalidIndex_False : arr_valid 2 2 = false.
Proof. reflexivity. Qed.
Example FixedArray_GetAt_InvalidIndex_DefaultInt : arr_get 0 2 (fun _ => 77) 2 = Some 0.
Proof. reflexivity. Qed.
Example FixedArray_SetAt_ValidIndexAndValue_GetAtRetrieves :
  (m <- fix_set 2 (fun _ => 77) 0 42 ;; arr_get 0 2 m 0) = Some 42.
Proof. lazy; reflexivity. Qed.
Example FixedArrayRef_IsValidIndex_InvalidIndex_False : arr_valid 2 2 = false.
Proof. reflexivity. Qed.
Example FixedArrayRef_GetAt_InvalidIndex_DefaultInt : arr_get 0 2 (fun _ => 0) 2 = Some 0.
Proof. reflexivity. Qed.
Example FixedArrayRef_SetAt_ValidIndexAndValue_GetAtRetrieves :
  (m <- fix_set 2 (fun _ => 0) 0 42 ;; arr_get 0 2 m 0) = Some 42.
Proof. lazy; reflexivity. Qed.

(** ** CollectionTest.cpp, CollectionRefTest.cpp: the same seven tests over FixedArray<int, 2>. *)
Definition coll0 : coll Z := mkColl (fun _ => 77) 0.
Example Collection_Count_InitializedCollection_Zero : c_count coll0 = 0.
Proof. reflexivity. Qed.
Example Collection_Count_OneItem_One : (c <- coll_run 2 coll0 [CAdd 0] ;; Some (c_count c)) = Some 1.
Proof. lazy; reflexivity. Qed.
Example Collection_IsValidIndex_InvalidIndex_False : coll_valid coll0 0 = false.
Proof. reflexivity. Qed.
Example Collection_IsValidIndex_ValidIndex_True : (c <- coll_run 2 coll0 [CAdd 0] ;; Some (coll_valid c 0)) = Some true.
Proof. lazy; reflexivity. Qed.
Example Collection_GetAt_InvalidIndex_DefaultOfT : coll_get 0 2 coll0 0 = Some 0.
Proof. reflexivity. Qed.
Example Collection_GetAt_ValidIndex_Value : (c <- coll_run 2 coll0 [CAdd 42] ;; coll_get 0 2 c 0) = Some 42.
Proof. lazy; reflexivity. Qed.
Example Collection_Add_TooManyTimes_DoesNotCrash :
  (c <- coll_run 2 coll0 (repeat (CAdd 42) 10) ;; Some (c_count c)) = Some 2.
Proof. lazy; reflexivity. Qed.

(** ** BitTest.cpp, BitFlagTest.cpp, BitArrayTest.cpp *)
Example Bit_Set8_Test : bit_set 32 false 8 0 2 = Some 4.
Proof. reflexivity. Qed.
Example Bit_Set16_Test : bit_set 32 false 16 0 10 = Some (u16 (Z.shiftl 4 8)).
Proof. reflexivity. Qed.
Example Bit_Set32_Test : bit_set 32 false 32 0 18 = Some (u32 (Z.shiftl 4 16)).
Proof. reflexivity. Qed.
Example Bit_SetIsTrue_Test : (t <- bit_set 32 false 8 0 2 ;; bit_true 32 false 8 t 2) = Some true.
Proof. reflexivity. Qed.
Example Bit_SetIsFalse_Test : (t <- bit_put 32 false 8 4 2 false ;; bit_false 32 false 8 t 2) = Some true.
Proof. reflexivity. Qed.
Example BitFlag_Set8_Test : flag_set 32 false 8 0 2 = Some 4.
Proof. reflexivity. Qed.
Example BitFlag_Set16_Test : flag_set 32 false 16 0 10 = Some (u16 (Z.shiftl 4 8)).
Proof. reflexivity. Qed.
Example BitFlag_Set32_Test : flag_set 32 false 32 0 18 = Some (u32 (Z.shiftl 4 16)).
Proof. reflexivity. Qed.
Example BitFlag_SetIsTrue_Test : (t <- flag_set 32 false 8 0 2 ;; flag_true 32 false 8 t 2) = Some true.
Proof. reflexivity. Qed.
Example BitFlag_SetIsFalse_Test : (t <- flag_put 32 false 8 4 2 false ;; flag_false 32 false 8 t 2) = Some true.
Proof. reflexivity. Qed.
Example BitArray_Constructor_Initialization_Test : ba_true 32 8 4 2 = Some true.
Proof. reflexivity. Qed.
Example BitArray_Set_Bit_Test : (p <- ba_put 32 8 0 3 true ;; Some (fst p)) = Some 8.
Proof. reflexivity. Qed.
Example BitArray_Set_BitToFalse_Test : (p <- ba_put 32 8 8 3 false ;; Some (fst p)) = Some 0.
Proof. reflexivity. Qed.
Example BitArray_Get_Bit_Test : ba_true 32 8 8 3 = Some true.
Proof. reflexivity. Qed.
Example BitArray_Set_MultiBit_Test : (p <- ba_set_field 32 8 0 3 17 2 ;; Some (fst p)) = Some 8.
Proof. reflexivity. Qed.
Example BitArray_Get_MultiBit_Test : ba_get_field 32 8 8 3 2 = Some 1.
Proof. reflexivity. Qed.
Example BitArray_Reverse_MultiBit_Test : ba_reverse8 85 = 170.
Proof. reflexivity. Qed.

(** ** ValueContainerTest.cpp *)
Example ValueContainer_InitWithAny_IsInRange_Test : (s <- vc_run vc_new [VAny] ;; vc_in s 12345) = Some true.
Proof. reflexivity. Qed.
Example ValueContainer_InitWithNone_IsInRange_Test : (s <- vc_run vc_new [VNone] ;; vc_in s 12345) = Some false.
Proof. reflexivity. Qed.
Example ValueContainer_InitWithSingleValue_getMode_Test :
  (s <- vc_run vc_new [VSingle 12345] ;; Some (vc_get_mode s)) = Some MSingle.
Proof. reflexivity. Qed.
Example ValueContainer_InitWithSingleValue_getValue_Test :
  (s <- vc_run vc_new [VSingle 12345] ;; vc_get_value s) = Some 12345.
Proof. reflexivity. Qed.
Example ValueContainer_InitWithSingleValue_IsInRange_Test :
  (s <- vc_run vc_new [VSingle 12345] ;; vc_in s 12345) = Some true.
Proof. reflexivity. Qed.
Example ValueContainer_InitWithRange_getMode_Test :
  (s <- vc_run vc_new [VRange 1234 12345] ;; Some (vc_get_mode s)) = Some MRange.
Proof. reflexivity. Qed.
Example ValueContainer_InitWithRange_IsInRange_Test :
  (s <- vc_run vc_new [VRange 1234 12345] ;; Some (vc_in s 1234, vc_in s 12345)) = Some (Some true, Some true).
Proof. reflexivity. Qed.
Example ValueContainer_InitWithRange_Normalize_Test :
  (s <- vc_run vc_new [VRange 12345 1234; VNormalize] ;; Some (vc_get_begin s, vc_get_end s)) = Some (Some 1234, Some 12345).
Proof. reflexivity. Qed.
Example ValueContainer_InitWithReverseRange_IsInRange_Test :
  (s <- vc_run vc_new [VRange 12345 1234] ;; Some (vc_in s 1234, vc_in s 12345)) = Some (Some true, Some true).
Proof. reflexivity. Qed.

(** ** TaskTest.cpp: CountingTask, whose expression ++LoopCount == LoopEnd has a side effect.  A task is
    its _task variable and its LoopCount. *)
Definition counting : TaskModel.cmd unit unit := CYield 27 tt.
Definition increment (loops : Z) (_ : unit) (count : Z) : bool * Z := (count + 1 =? loops, count + 1).
(** One call of Execute. *)
Definition execute (loops : Z) (t : Z * Z) : option (bool * (Z * Z)) :=
  match task_run (fun (_ : unit) w => w) (increment loops) 10 counting (Idle (fst t) (snd t) [fun w => w]) with
  | Some (trace, Idle task count _) =>
      match last trace EvPause with EvPause => Some (true, (task, count)) | EvEnd => Some (false, (task, count)) | _ => None end
  | _ => None
  end.
(** while (true) { if (running) running = task.Execute(); ... if none is running, break; } *)
Fixpoint round (l : list (Z * (bool * (Z * Z)))) : option (list (Z * (bool * (Z * Z)))) :=
  match l with
  | [] => Some []
  | (loops, (running, t)) :: r =>
      x <- (if running then execute loops t else Some (running, t)) ;; r' <- round r ;; Some ((loops, x) :: r')
  end.
Fixpoint rounds (fuel : nat) (l : list (Z * (bool * (Z * Z)))) : option (list (Z * (bool * (Z * Z)))) :=
  match fuel with
  | O => None
  | S k => l' <- round l ;; if existsb (fun x => fst (snd x)) l' then rounds k l' else Some l'
  end.
Definition loop_counts (ends : list Z) : option (list Z) :=
  l <- rounds 100 (map (fun e => (e, (true, (0, 0)))) ends) ;; Some (map (fun x => snd (snd (snd x))) l).
Example Task_CountingTaskTest : loop_counts [5] = Some [5].
Proof. lazy; reflexivity. Qed.
Example Task_MultipleCountingTasksTest : loop_counts [5; 7; 3; 15] = Some [5; 7; 3; 15].
Proof. lazy; reflexivity. Qed.

(** ** MidiMessageTest.cpp: channel 15, note 64, velocity 100, bend 1024; NoteOff 128, NoteOn 144,
    PitchBend 224, SongPosition 242. *)
Example MidiMessage_StructureDefinition_PitchBend :
  let m := set_bend (mkMsg 224 15 0 0) 1024 in (m_type m, m_channel m, m_bend m) = (224, 15, 1024).
Proof. reflexivity. Qed.
Example MidiMessage_StructureDefinition_ChannelMessage :
  let m := mkMsg 144 15 64 100 in (m_type m, m_channel m, m_note m, m_velocity m) = (144, 15, 64, 100).
Proof. reflexivity. Qed.
Example MidiMessage_StructureDefinition_SongPosition :
  let m := set_beats (mkMsg 242 0 0 0) 32000 in (m_type m, m_beats m) = (242, 32000).
Proof. reflexivity. Qed.
Example MidiMessage_SequentialInit_ChannelMessage :
  let m := set_data2 (set_data1 (set_status m_new (Z.lor 128 15)) 64) 100 in
  (m_type m, m_channel m, m_note m, m_velocity m) = (128, 15, 64, 100).
Proof. reflexivity. Qed.
Example MidiMessage_CopyTo_IsEqual :
  let L := lay_arm in
  let msg := st_bend L (st_channel L (st_type L (lmsg_new L (fun _ => 77)) 224) 15) 1024 in
  let target := lcopy L msg (lmsg_new L (fun _ => 78)) in
  (ld_type L target, ld_channel L target, ld_note L target, ld_velocity L target, ld_bend L target, ld_beats L target) =
  (ld_type L msg, ld_channel L msg, ld_note L msg, ld_velocity L msg, ld_bend L msg, ld_beats L msg) /\
  (ld_type L msg, ld_channel L msg, ld_bend L msg) = (224, 15, 1024).
Proof. split; lazy; reflexivity. Qed.
Example MidiMessage_SequentialInit_PitchBend :
  let m := set_data2 (set_data1 (set_status m_new (Z.lor 224 15)) 0) 8 in (m_type m, m_channel m, m_bend m) = (224, 15, 1024).
Proof. reflexivity. Qed.
Example MidiMessage_SequentialExtraction_ChannelMessage :
  let m := mkMsg 144 15 64 100 in (get_status m, get_data1 m, get_data2 m) = (Z.lor 144 15, 64, 100).
Proof. reflexivity. Qed.
Example MidiMessage_SequentialExtraction_PitchBend :
  let m := set_bend (mkMsg 224 15 0 0) 1024 in (get_status m, get_data1 m, get_data2 m) = (Z.lor 224 15, 0, 8).
Proof. reflexivity. Qed.

(** ** MidiReaderTest.cpp: what each call of Read notified and answered; at the end Read answers false. *)
Example MidiReader_InitBufferWithNoteOn_Read_FiresChannelMessageEvent :
  read_calls 4 r_init [145; 64; 112]
  = [([], true); ([], true); ([NMessage (mkMsg 144 1 64 112)], true); ([], false)].
Proof. lazy; reflexivity. Qed.
Example MidiReader_InitBufferWithChannelAndRealtime_Read_FiresChannelMessageAndRealtimeEvent :
  read_calls 5 r_init [145; 64; 255; 112]
  = [([], true); ([], true); ([NRealtime 255], true); ([NMessage (mkMsg 144 1 64 112)], true); ([], false)].
Proof. lazy; reflexivity. Qed.
Example MidiReader_InitBufferWithChannelAndRealtime_Read_FiresChannelMessageAndRealtimeEvent2 :
  read_calls 5 r_init [145; 255; 64; 112]
  = [([], true); ([NRealtime 255], true); ([], true); ([NMessage (mkMsg 144 1 64 112)], true); ([], false)].
Proof. lazy; reflexivity. Qed.
Example MidiReader_InitBufferWithMultipleChannelMessages_Read_FiresChannelMessageEvents :
  read_calls 6 r_init [145; 64; 112; 129; 68; 104]
  = [([], true); ([], true); ([NMessage (mkMsg 144 1 64 112)], true);
     ([], true); ([], true); ([NMessage (mkMsg 128 1 68 104)], true)].
Proof. lazy; reflexivity. Qed.
Example MidiReader_InitBufferWithRunningStatusChannelMessages_Read_FiresChannelMessageEvents :
  read_calls 5 r_init [145; 64; 112; 68; 104]
  = [([], true); ([], true); ([NMessage (mkMsg 144 1 64 112)], true);
     ([], true); ([NMessage (mkMsg 144 1 68 104)], true)].
Proof. lazy; reflexivity. Qed.

(** ** MidiWriterTest.cpp *)
Example MidiWriter_InitWithChannelMessage_Write_OutputsToStream :
  write_all 0 [WMessage (set_data2 (set_data1 (set_status m_new (Z.lor 144 1)) 64) 100)] = [Z.lor 144 1; 64; 100].
Proof. lazy; reflexivity. Qed.

(** ** TextWriterTest.cpp: the characters written; getLength is their number.  '-' is 45, '.' is 46. *)
Definition memory_of (l : list Z) (i : Z) : Z := nth (Z.to_nat i) l 0.
Example TextWriter_Text_Write_ReportsCorrectLength :
  option_map (@List.length Z) (tw_str 7 (memory_of (chars "123456")) 0) = Some 6%nat.
Proof. lazy; reflexivity. Qed.
Example TextWriter_Text_Write_DoesNotWriteTerminatingZero :
  tw_str 7 (memory_of (chars "123456")) 0 = Some (chars "123456").
Proof. lazy; reflexivity. Qed.
Example TextWriter_PositiveInt_Write_ConvertsToText : tw_int32 32 10 45 123456 = Some (chars "123456").
Proof. lazy; reflexivity. Qed.
Example TextWriter_NegativeInt_Write_ConvertsToText : tw_int32 32 10 45 (-23456) = Some (chars "-23456").
Proof. lazy; reflexivity. Qed.
(** On AVR the test's -23456 is an int16_t. *)
Example TextWriter_NegativeInt_Write_ConvertsToText_AVR : tw_int16 16 10 45 (-23456) = Some (chars "-23456").
Proof. lazy; reflexivity. Qed.
Example TextWriter_PositiveLong_Write_ConvertsToText : tw_int32 32 10 45 123456 = Some (chars "123456").
Proof. lazy; reflexivity. Qed.
Example TextWriter_NegativeLong_Write_ConvertsToText : tw_int32 32 10 45 (-23456) = Some (chars "-23456").
Proof. lazy; reflexivity. Qed.
(** The double nearest to n/d, of a PC (53 bits; no number below 2^-100 occurs in these tests, where binary64
    goes down to 2^-1074) and of AVR (binary32). *)
Definition pc_double (n d : Z) : Z := fl 53 (n * 2 ^ 100) d.
Definition avr_double (n d : Z) : Z := fl 24 (n * 2 ^ 149) d.
Example TextWriter_PositiveDouble_Write_ConvertsToText :
  fl_write_real 53 100 32 45 46 (pc_double 12456 1000) 2 = Some (chars "12.46").
Proof. lazy; reflexivity. Qed.
Example TextWriter_NegativeDouble_Write_ConvertsToText :
  fl_write_real 53 100 32 45 46 (- pc_double 2356 100) 2 = Some (chars "-23.56").
Proof. lazy; reflexivity. Qed.
Example TextWriter_PositiveDouble_Write_ConvertsToText_AVR :
  fl_write_real 24 149 16 45 46 (avr_double 12456 1000) 2 = Some (chars "12.46").
Proof. lazy; reflexivity. Qed.
Example TextWriter_NegativeDouble_Write_ConvertsToText_AVR :
  fl_write_real 24 149 16 45 46 (- avr_double 2356 100) 2 = Some (chars "-23.56").
Proof. lazy; reflexivity. Qed.
Example TextWriter_WriteLine_NewLineCarriageReturn : write_line (Some []) = Some [10; 13].
Proof. reflexivity. Qed.

(** ** URM37V32_ControllerTest.cpp: the sensor's answers are there from the start, and are the bytes sent. *)
Definition answer (d1 d2 : Z) : list Z := [68; d1; d2; u8 (68 + d1 + d2)].
Example URM37V32_SetAutonomousTriggerMode_CheckCommandsSent :
  let input := answer 2 170 ++ answer 0 67 ++ answer 1 0 in
  set_autonomous [] (input :: repeat [] 10) 67 = (input, Some true).
Proof. lazy; reflexivity. Qed.
Example URM37V32_SetPassiveControlMode_CheckCommandsSent :
  set_passive [] [answer 2 187] = (answer 2 187, Some true).
Proof. lazy; reflexivity. Qed.

(** ** TB6612FNG_ControllerTest.cpp: the arguments of Send of the driver. *)
Example TB6612FNG_Stop_FF0 : forall s, command_trace s Stop = send s false false 0.
Proof. reflexivity. Qed.
Example TB6612FNG_Break_TT0 : forall s, command_trace s Break = send s true true 0.
Proof. reflexivity. Qed.
Example TB6612FNG_Clockwise_FF123 : forall s, command_trace s (Clockwise 123) = send s true false 123.
Proof. reflexivity. Qed.
Example TB6612FNG_CounterClockwise_FT123 : forall s, command_trace s (CounterClockwise 123) = send s false true 123.
Proof. reflexivity. Qed.

(** ** StreamInputStreamTest.cpp, StreamOutputStreamTest.cpp *)
Definition ports (input : list Z) : adapters := mkAdapters (Some 0%nat) (Some 0%nat) (fun _ => mkSerial input [] []).
Definition stream_answers (input : list Z) (ops : list aop) : option (list Z) := p <- a_run 64 (ports input) ops ;; Some (snd p).
Example StreamInputStream_AttachStream_getLength_ReportsCorrectLength :
  stream_answers [0; 0; 0; 0] [ALength] = Some [4].
Proof. lazy; reflexivity. Qed.
Example StreamInputStream_AttachStream_Clear_RemovesAllData :
  stream_answers [0; 0; 0; 0] [AClear; ALength; ARead] = Some [0; 0; -1].
Proof. lazy; reflexivity. Qed.
Example StreamInputStream_AttachStream_Read_ReturnsCorrectData :
  stream_answers [0; 1; 2; 3] [ARead; ARead; ARead; ARead; ALength; ARead] = Some [0; 1; 2; 3; 0; -1].
Proof. lazy; reflexivity. Qed.
Example StreamOutputStream_AttachStream_getLength_ReportsCorrectLength : stream_answers [] [AOutLength] = Some [0].
Proof. lazy; reflexivity. Qed.
Example StreamOutputStream_AttachStream_Write_DataIntoBuffer :
  (p <- a_run 64 (ports []) [AWrite 255; AWrite 240] ;; Some (s_out (a_port (fst p) 0%nat))) = Some [255; 240].
Proof. lazy; reflexivity. Qed.

(** ** InputControlTest.cpp: the state and the answer. *)
Definition to (new : cstate) : cstate := fst (set_state KInput Normal new).
Example InputControl_NormalTrySelect_Fails : try_select KInput Normal = (Normal, false).
Proof. reflexivity. Qed.
Example InputControl_FocusedTrySelect_SetSelectedState : try_select KInput (to Focused) = (Selected, true).
Proof. reflexivity. Qed.
Example InputControl_SelectedTryDeselect_ResetSelectedState : try_deselect KInput (to Selected) = (Focused, true).
Proof. reflexivity. Qed.
Example InputControl_NormalTrySelect_ReturnFalse : let (s, b) := try_select KInput Normal in b = false /\ s <> Selected.
Proof. split; [reflexivity | discriminate]. Qed.
Example InputControl_NormalTryDeselect_ReturnFalse : let (s, b) := try_deselect KInput Normal in b = false /\ s <> Focused.
Proof. split; [reflexivity | discriminate]. Qed.
Definition input (s : cstate) : ctl := Field s 0 1 false [].
Example InputControl_FocusedKeyEnter_SetSelectedState : nav Enter (input (to Focused)) = (input Selected, true).
Proof. reflexivity. Qed.
Example InputControl_SelectedKeyExit_ResetSelectedState : nav Exit (input (to Selected)) = (input Focused, true).
Proof. reflexivity. Qed.

(** ** UpDownControlTest.cpp: the commands that reached the value. *)
Example UpDownControl_TryValueUp_NotSelected_False : field_nav Normal false [] Up = (Normal, [], false).
Proof. reflexivity. Qed.
Example UpDownControl_TryValueUp_IsSelected_True : field_nav (to Selected) false [] Up = (Selected, [Up], true).
Proof. reflexivity. Qed.
Example UpDownControl_TryValueDown_NotSelected_False : field_nav Normal false [] Down = (Normal, [], false).
Proof. reflexivity. Qed.
Example UpDownControl_TryValueDown_IsSelected_True : field_nav (to Selected) false [] Down = (Selected, [Down], true).
Proof. reflexivity. Qed.

(** ** PanelControlContainerTest.cpp: the control is number 1. *)
Example PanelControlContainer_GetAt_FirstControl_IsIndexZero : (c <- cont_add 2 coll0 1 ;; cont_get 2 c 0) = Some 1.
Proof. lazy; reflexivity. Qed.
Example PanelControlContainer_IndexOf_FirstControl_IsIndexZero :
  (c <- cont_add 2 coll0 1 ;; coll_index_of Z.eqb 0 2 c 1) = Some 0.
Proof. lazy; reflexivity. Qed.

(** ** HorizontalPanelTest.cpp, VerticalPanelTest.cpp: was the command handled, and the current control. *)
Definition two (k : pkind) : ctl := Box k Normal 0 None [input Normal; input Normal].
Definition command_on (b : ctl) (m : UiModel.cmd) : bool * option nat := let (b, h) := nav m b in (h, cur_of b).
Example HorizontalPanel_CurrentControl_NoCurrentCtrl_Null :
  cur_of (Box Horizontal Normal 0 None []) = None /\ cur_of (Box Horizontal Normal 0 None [input Normal]) = None.
Proof. split; reflexivity. Qed.
Example HorizontalPanel_KeyLeft_NoCurrentCtrl_SelectsLastControl : command_on (two Horizontal) Left = (true, Some 1%nat).
Proof. reflexivity. Qed.
Example HorizontalPanel_KeyRight_NoCurrentCtrl_SelectsFirstControl : command_on (two Horizontal) Right = (true, Some 0%nat).
Proof. reflexivity. Qed.
Example HorizontalPanel_KeyUp_NoCurrentCtrl_NotHandled : command_on (two Horizontal) Up = (false, None).
Proof. reflexivity. Qed.
Example HorizontalPanel_KeyDown_NoCurrentCtrl_NotHandled : command_on (two Horizontal) Down = (false, None).
Proof. reflexivity. Qed.
Example VerticalPanel_CurrentControl_NoCurrentCtrl_Null :
  cur_of (Box Vertical Normal 0 None []) = None /\ cur_of (Box Vertical Normal 0 None [input Normal]) = None.
Proof. split; reflexivity. Qed.
Example VerticalPanel_KeyUp_NoCurrentCtrl_SelectsLastControl : command_on (two Vertical) Up = (true, Some 1%nat).
Proof. reflexivity. Qed.
Example VerticalPanel_KeyDown_NoCurrentCtrl_SelectsFirstControl : command_on (two Vertical) Down = (true, Some 0%nat).
Proof. reflexivity. Qed.
Example VerticalPanel_KeyLeft_NoCurrentCtrl_NotHandled : command_on (two Vertical) Left = (false, None).
Proof. reflexivity. Qed.
Example VerticalPanel_KeyRight_NoCurrentCtrl_NotHandled : command_on (two Vertical) Right = (false, None).
Proof. reflexivity. Qed.

(** ** PageTest.cpp: a page of two empty lines; TrySelectNextLine is what Down does. *)
Definition line : ctl := Box Horizontal Normal 0 None [].
Definition page : ctl := Box PageK Normal 0 None [line; line].
Example Page_SetFirstInputControl_SelectsFirstLine :
  let (p, success) := set_first page in (success, cur_of p) = (true, Some 0%nat).
Proof. reflexivity. Qed.
Example Page_TrySelectNextLine_SelectsSecondLine : command_on (fst (set_first page)) Down = (true, Some 1%nat).
Proof. reflexivity. Qed.

(** ** TextControlTest.cpp: an empty FixedString<6> and an iterator over the characters 0 to 127. *)
Definition text_control (ops : list tc_op) : option (tc * list bool) :=
  tc_run 6 128 false (fun i => i) (mkTc Normal (fun _ => 0) 0 it_reset) ops.
Definition letter (t : tc) : Z := it_current 128 0 (st_get 0 128 (fun i => i)) (tc_it t).
Example TextControl_TryMoveCursorLeft_Selected_Success :
  (p <- text_control [TState Selected; TNav Left] ;; Some (snd p)) = Some [true; true].
Proof. lazy; reflexivity. Qed.
Example TextControl_TryMoveCursorRight_Selected_Success :
  (p <- text_control [TState Selected; TNav Right] ;; Some (snd p)) = Some [true; true].
Proof. lazy; reflexivity. Qed.
Example TextControl_TryMoveCursorRight_Selected_CursorNotMoved :
  (p <- text_control [TState Selected] ;; q <- text_control [TState Selected; TNav Right] ;;
   Some (letter (fst p) =? letter (fst q), snd q)) = Some (true, [true; true]).
Proof. lazy; reflexivity. Qed.

(** ** UsartConfigTest.cpp (F_CPU is 1 MHz), UsartRegistersTest.cpp (addresses of the data sheet) *)
Definition usart_at (baud : Z) : option (bool * Z * umode * Z) :=
  p <- init_async 1000000 cfg_new baud ;; Some (snd p, c_ubrr (fst p), get_mode (fst p), get_rate 1000000 (fst p)).
Example UsartConfig_InitAsync_9600_CorrectUBRRAndMode : usart_at 9600 = Some (true, 12, MDouble, 9615).
Proof. lazy; reflexivity. Qed.
Example UsartConfig_InitAsync_31250_CorrectUBRRAndMode : usart_at 31250 = Some (true, 1, MAsync, 31250).
Proof. lazy; reflexivity. Qed.
Example UsartRegisters_Usart_Index : (a_ubrr 0, a_ucsra 0, a_ucsrb 0, a_ucsrc 0) = (196, 192, 193, 194).
Proof. reflexivity. Qed.

(** ** The four sketches under Arduino Libraries/ATL/examples that only touch memory, on an AVR (an int has 16 bits). *)
(** Array/Array.ino 12-24: the write and the read at index 10 both go to the shared dummy. *)
Example Array_ino :
  (s <- arr_steps 4 (mkArrays (fun _ _ => 0) 0) [OpIndexAssign O 0 42] ;;
   v <- arr_index_read 4 s O 0 ;;
   s <- arr_step 4 s (OpSetAt O 2 v) ;;
   d <- arr_index_read 4 s O 10 ;;
   s <- arr_step 4 s (OpIndexAssign O 10 d) ;;
   Some (map (a_mem s O) (upto 4), map (a_mem s O) [4; 10], d)) = Some ([42; 0; 42; 0], [0; 0], 0).
Proof. lazy; reflexivity. Qed.
(** Bit/Bit.ino 16-29. *)
Example Bit_ino :
  (i <- bit_set 16 true 16 0 3 ;; c <- bit_set 16 false 8 0 3 ;;
   j <- flag_put 16 true 16 i 3 false ;; d <- flag_put 16 false 8 c 3 false ;; Some (i, c, j, d)) = Some (8, 8, 0, 0).
Proof. reflexivity. Qed.
(** BitArray/BitArray.ino 14-38: unsigned short is not uint16_t (unsigned int) there, so Reverse is the generic one. *)
Example BitArray_ino :
  (p <- ba_run 16 16 0 [BSet 2; BIsTrue 2; BResetAll] ;;
   q <- ba_set_field 16 16 (fst p) 0 15 4 ;;
   n <- ba_get_field 16 16 (fst q) 0 4 ;;
   b <- ba_shift_down 16 16 (ba_reverse 16 (fst q)) 4 ;;
   Some (snd p, q, n, ba_reverse 16 (fst q), b)) = Some ([true; true; true], (15, true), 15, 61440, 3840).
Proof. lazy; reflexivity. Qed.
(** CollectionRef/CollectionRef.ino 20-36: the third and the fourth Add are refused. *)
Example CollectionRef_ino :
  (c <- coll_run 2 coll0 [CAdd 42; CAdd 42; CAdd 42; CAdd 42] ;;
   a <- coll_get 0 2 c 0 ;; b <- coll_get 0 2 c 1 ;; Some (c_count c, a, b)) = Some (2, 42, 42).
Proof. lazy; reflexivity. Qed.
