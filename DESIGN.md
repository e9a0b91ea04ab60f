# Formal model of the Arduino Template Library (ATL)

All source paths below are relative to `/repo/Source/Code/ArduinoTemplateLibrary/`.
The C++ sources are read as text; nothing of the project is built or run.

## Trusted base

* Coq 8.16.1's kernel (including `vm_compute`).
* What `Print Assumptions` lists for each theorem.  Every `*Props.v` file prints it
  below each theorem.  The expected answer is "Closed under the global context" for all
  theorems; any exception is listed in the section "Assumptions" below.
* The hand translation of the C++ functions into Gallina.  Every definition in a
  `*Model.v` file cites the file and lines it was taken from.  The section
  "What is modelled and what is not" lists the simplifications.

No library other than Coq's standard library is used.

## Conventions

* Numbers are `Z`.  Fixed width arithmetic is written out: `u8`, `u16`, `u32` reduce modulo
  2^8, 2^16, 2^32; `s8`, `s16`, `s32` convert to two's complement.
* The target is AVR as the library assumes it: 8-bit `char`, 16-bit `int`, 32-bit `long`.
  Where the answer depends on the width of `int` this is said at the definition.
* Undefined behaviour (out of bounds access, division by zero, ...) is a distinct outcome:
  functions that can reach it return `option`, `None` meaning undefined behaviour.
* Loops are structural or fuelled; running out of fuel is a distinct outcome that theorems
  exclude (or prove, for the loops that do not terminate).
* Files per area: `XModel.v` (translated code only), `XSpec.v` (independent specification),
  `XProofs.v` (lemmas), `XProps.v` (the property theorems, each with `Print Assumptions`, and
  examples showing that hypotheses are satisfiable).
* A theorem whose name ends in `_refuted` proves that the natural reading of a claim is false,
  with a witness.  These are findings about the code.

## Properties

<!-- TABLE -->
| Id | Property | Model / proof idea | Status and theorems |
|---|---|---|---|
| C01 | RingBuffer is a bounded FIFO | cursor model; refinement to a list queue | proved: `ring_fifo` |
| C02 | RingBuffer underrun corrupts the queue | refutation of the unguarded FIFO claim | proved: `ring_underrun`, `ring_underrun_stale`, `ring_read_empty_harmless_refuted` |
| C03 | BufferedInputStream never underruns | fold over operations against a list spec | proved: `buffered_input_stream` |
| C04 | Ring buffer shared between main loop and interrupt handler | small-step two-thread transition system, inductive invariant | proved: `tx_stream_fifo`, `rx_stream_fifo`, `rx_stream_no_false_empty`, `rx_stream_first_read`, `tx_stream_any_schedule_refuted`, `rx_stream_any_schedule_refuted`, `length_preempted_refuted`, `length_preempted`, `tx_stream_calls`, `tx_stream_accepts`, `rx_stream_stores` |
| C05 | Array reads are total | list model with int16 conversions | proved: `array_reads_total`, `array_large_unusable` |
| C06 | FixedArray read-after-write and no stray writes | heap of elements plus one shared dummy element | proved: `fixed_array_last_write`, `operator_index_default_refuted` |
| C07 | FixedArray::Clear only clears capacity-many bytes | byte-level storage model, claim characterised plus refutation of 'Clear clears everything' | proved: `fixed_array_clear`, `fixed_array_clear_bytes`, `fixed_array_clear_all_refuted` |
| C08 | FixedString stays NUL terminated | strncpy as a recursive function on byte lists; invariant over histories | proved: `fixed_string_terminated`, `fixed_string_setat_refuted`, `fixed_string_capacity`, `fixed_string_bytes` |
| C09 | Collection is a bounded growable list | refinement to list | proved: `collection_is_list` |
| C10 | Collection::IndexOf | list model with the 8-bit result conversion; refutation of the unguarded claim | proved: `collection_index_of`, `first_pos_meaning`, `collection_index_of_refuted` |
| C11 | Forward and backward iteration visit each item once, in order | index state machine | proved: `iterate_forward`, `iterate_backward`, `iterate_again`, `iterator_moves`, `iterator_move_to` |
| C12 | WrapAroundIterator cycles | modular arithmetic on index | proved: `wrap_around_cycle`, `wrap_around_inverse`, `wrap_around_start`, `wrap_around_empty` |
| C13 | StaticArray::IndexOf | fuelled loop with uint8 counter, divergence theorem for all fuel | proved: `static_array_reads`, `static_index_of`, `static_index_of_diverges` |
| C14 | BitArray bit-field read-after-write | N bit-level model with explicit truncation | proved: `bitarray_field_roundtrip`, `bitarray_field_value`, `bitarray_field_rejected`, `bitarray_empty_field_refuted` |
| C15 | BitArray single-bit operations | testbit lemmas, fold over history | proved: `bitarray_history`, `bitarray_uint32_refuted` |
| C16 | BitArray::Reverse | testbit characterisation for every width; specialisations by bit reasoning | proved: `bitarray_reverse`, `bitarray_reverse_twice`, `bitarray_reverse8`, `bitarray_reverse16` |
| C17 | Bit<> compile-time bit access | N/Z bit model incl. 16-bit int shift on AVR | proved: `bit_writes`, `bit_reads`, `bit_toggle_twice`, `bit_signed_refuted`, `bit_uint32_int16` |
| C18 | BitFlag runtime bit access | bit model | proved: `bitflag_in_range`, `bitflag_out_of_range`, `bitflag_edge` |
| C19 | Range clipping | Z model (order laws only) | proved: `range_membership`, `range_clip`, `range_clip_reversed` |
| C20 | ValueContainer membership | set semantics | proved: `value_container_set`, `value_container_getters`, `value_container_normalize_new_refuted` |
| C21 | Time deltas are exact across timer wrap | mod 2^32 telescoping sum | proved: `time_deltas_exact`, `time_deltas_modulo`, `time_conversions`, `time_ex_delta`, `time_ex_start` |
| C22 | A delay never fires early and fires at the first opportunity | slot table model; per-id refinement to a countdown | proved: `delay_fires_at_first_opportunity`, `delay_never_early`, `delay_double_poll_early_refuted`, `delay_skipped_poll_late_refuted` |
| C23 | Delays do not interfere | invariant: no duplicate ids | proved: `delays_independent`, `delays_capacity`, `delays_last_delta` |
| C24 | Delays capacity | UB outcome in model; iff characterisation; refutation for id 0 | proved: `delays_capacity`, `delay_id_zero_immediate`, `delay_id_zero_never` |
| C25 | Cooperative task resume | switch/line-number machine with jump into nested blocks; big-step blocking semantics as spec; soundness and completeness | proved: `task_resumes`, `task_spec_deterministic`, `task_one_answer_per_call`, `task_straight_line` |
| C26 | TimeoutTask fires periodically | compose C22 and C25 | proved: `timeout_task_fires`, `timeout_task_due`, `timeout_task_is_task` |
| C27 | PushButton debounce | state machine, invariant over event traces | proved: `push_button_refines`, `push_button_transitions`, `push_button_debounce`, `push_button_first_scan_refuted` |
| C28 | PushButton hold | state machine | proved: `push_button_refines`, `push_button_transitions`, `push_button_hold` |
| C29 | DigitalInput edge detection | fold | proved: `digital_input_edges` |
| C30 | MIDI status classification | independent MIDI table spec | proved: `midi_classification`, `midi_is_channel_refuted` |
| C31 | MidiMessage byte round trip | explicit union byte layout | proved: `midi_message_roundtrip`, `midi_message_fields`, `midi_message_of_fields`, `midi_message_new`, `midi_set_data2_twice_refuted` |
| C32 | MidiReader decodes every well-formed stream | parser state machine vs. encoder spec | proved: `midi_reader_decodes`, `midi_read_calls` |
| C33 | MidiReader stays well defined on arbitrary input | invariant over streams; SysEx lock-up theorem | proved: `midi_reader_arbitrary_input`, `midi_reader_sysex_locks`, `midi_reader_resync_refuted`, `midi_reader_undefined_refuted`, `midi_read_false`, `midi_read_idle`, `midi_read_true_refuted` |
| C34 | MidiWriter/MidiReader round trip | compose writer with C32 | proved: `midi_writer_legal`, `midi_writer_reader`, `midi_writer_refuted` |
| C35 | TextWriter integer formatting | digit loop model; parse round trip | proved: `text_numeral_unique`, `text_write_unsigned`, `text_write_int16`, `text_write_int32`, `text_write_signed_other_base`, `text_write_most_negative_refuted` |
| C36 | TextWriter digit buffer bound | buffer writes checked; iff characterisation | proved: `text_buffer_overrun`, `text_buffer_overrun_any` |
| C37 | TextWriter character output | model + refutation of the documented behaviour | proved: `text_write_string`, `text_write_char`, `text_write_char_refuted`, `text_write_line` |
| C38 | PID integral wind-up is bounded | Z/Q model with range clip | proved: `pid_output_refines`, `pid_defined`, `pid_defined_iff`, `pid_bounded`, `pid_integral_sum`, `pid_no_windup`, `pid_dead_band`, `pid_uninitialised_refuted`, `pid_int_exact`, `pid_int_refuted`, `pid_int_falling_refuted`, `pid_zero_time_refuted` |
| C39 | URM37 framing and checksum | mod 256 arithmetic | proved: `urm_send_receive`, `urm_single_byte_detected`, `urm_needs_four`, `urm_poll_frames`, `urm_poll_keeps_up`, `urm_eeprom`, `urm_eeprom_spins`, `urm_autonomous_bytes`, `urm_autonomous`, `urm_passive`, `urm_autonomous_replies`, `urm_passive_reply`, `urm_autonomous_half_refuted`, `urm_lost_byte_refuted` |
| C40 | URM37 distance and temperature decoding | arithmetic | proved: `urm_distance`, `urm_distance_short`, `urm_distance_255_refuted`, `urm_temperature`, `urm_degrees`, `urm_measure_distance`, `urm_measure_temperature`, `urm_commands` |
| C41 | Serial shift-out loads the register | pin-event trace + shift-register device model; divergence for all fuel | proved: `shift_write_reverse`, `shift_outputs_stable`, `shift_write_refuted` |
| C42 | TB6612FNG direction and speed | pin model | proved: `motor_last_command`, `motor_forgets`, `motor_no_glitch`, `motor_glitch_refuted`, `motor_speed_zero_refuted`, `motor_serial_refuted` |
| C43 | HD44780 nibble protocol | pin trace + device decoder | proved: `hd_parallel`, `hd_i2c`, `hd_3wire`, `hd_bytes`, `hd_initialise`, `hd_controller_initialise`, `hd_initialise_refuted` |
| C44 | HD44780 controller settings | register model, invariant | proved: `hd_settings`, `hd_controller`, `hd_direction`, `hd_direction_refuted` |
| C45 | HD44780 view cursor tracking | cursor model vs device address counter | proved: `hd_view`, `hd_cells_distinct`, `hd_view_refuted` |
| C46 | HD44780 viewport scrolling | refutation | proved: `hd_viewport_refuted`, `hd_viewport_right`, `hd_viewport_left` |
| C47 | UI control state machine | state machine invariant | proved: `ui_set_state`, `ui_state_history`, `ui_select`, `ui_select_refuted`, `ui_types`, `ui_types_refuted`, `ui_getters` |
| C48 | Panel focus | invariant over navigation commands | proved: `ui_focus`, `ui_focus_refuted`, `ui_nav_frame`, `ui_moves`, `ui_move_answer`, `ui_first`, `ui_horizontal`, `ui_vertical`, `ui_page_enter`, `ui_page_selected`, `ui_page_lines`, `ui_focus_lines_refuted`, `ui_disabled_refuted`, `ui_edit_refuted` |
| C49 | Control container neighbours | list model | proved: `ui_container`, `ui_walk`, `ui_prev_next`, `ui_container_refuted` |
| C50 | TextControl editing stays in the buffer | invariant | proved: `ui_edit_safe`, `ui_edit`, `ui_text_field`, `ui_edit_refuted_chars` |
| C51 | USART baud selection | integer model with truncation | proved: `usart_ubrr`, `usart_choice`, `usart_rate_bounds`, `usart_get_rate`, `usart_mode`, `usart_rate_refuted` |
| C52 | USART frame format registers | finite enumeration, hardware decoding spec | proved: `usart_open`, `usart_config`, `usart_frame`, `usart_frame_refuted` |
| C53 | Port operations touch only their bit | bit frame | proved: `port_bits`, `port_directions`, `pin_construct`, `port_refuted` |
| C54 | Power reduction flags | bit frame + refutation | proved: `usart_power`, `usart_power_getter_refuted` |
| C55 | USART transmit stream never stalls | transition system invariant + progress measure | proved: `tx_stream_fifo`, `tx_stream_drains` |
| C56 | BitArray shifts | testbit characterisation with explicit promotion | proved: `bitarray_shift` |
| C57 | Math::Abs | Z model with explicit promotion | proved: `math_abs_value` |
| C58 | AVR Button state recording | packed 3-bit fields over the BitArray model | proved: `avr_button_state`, `avr_button_value` |
| C59 | TextWriter real formatting | floats as integers times 2^-s, each operation rounded; error bound over both loops; also exact fractions | proved: `text_write_real_float`, `text_write_real_nearest`, `text_write_real_whole`, `text_write_real_total`, `text_write_real_large`, `text_write_real_float_refuted`, `text_write_real_exact`, `text_write_real_refuted` |
| C60 | HD44780 display writer | display model executing the commands sent | proved: `hd_writer_goto`, `hd_writer_cursor`, `hd_writer_hide`, `hd_writer_cursor_refuted` |
| C61 | AVR register histories | registers as bits, refinement by induction | proved: `avr_registers`, `avr_addresses`, `avr_bit`, `usart_close`, `pin_change_refuted` |
| C62 | USART data round trip | bit model of the registers and a queue for the line | proved: `usart_write`, `usart_roundtrip` |
| C63 | USART receive results | bit model | proved: `usart_result`, `usart_read`, `usart_try_read` |
| C64 | USART Flush | refutation | proved: `usart_flush_refuted` |
| C65 | A page on the display | calls of the writer executed on the display model; picture of the page as specification | proved: `page_draw`, `page_cursor`, `page_cursor_refuted`, `page_history`, `page_start`, `page_wire`, `page_controller`, `page_add_rows`, `page_add_rows_refuted`, `page_hidden_refuted`, `page_blink_refuted`, `page_tree`, `page_tree_refuted` |
| C66 | The display gets the time it needs | steps with durations against a display with a busy time; exact condition on the profile | proved: `timing_parallel`, `timing_i2c`, `timing_3wire`, `timing_start_parallel`, `timing_start_i2c`, `timing_start_3wire`, `timing_exact`, `timing_start_exact`, `timing_default`, `timing_default_refuted`, `timing_start_refuted`, `timing_default_waits`, `timing_commented`, `timing_start_exact_i2c`, `timing_start_exact_3wire` |
| C67 | MIDI over a serial line | composition of the stream and MIDI models; invariant relating sent, travelling and parsed bytes | proved: `midi_link`, `midi_link_arrives`, `midi_link_deaf_refuted`, `midi_link_overflow_refuted` |
| C68 | Constants in program memory | bytes of the linker's layout read back; two's complement little endian as specification | proved: `flash_array_reads`, `flash_index_of`, `flash_far_refuted`, `flash_double_refuted`, `static_string_read`, `static_string_refuted` |
| C69 | Arduino stream adapters | queue model of the ports; per port accounting of bytes by induction; composition with the MIDI model | proved: `arduino_streams`, `arduino_stream_answers`, `arduino_clear_ends`, `arduino_clear_refuted`, `arduino_midi`, `arduino_midi_overflow_refuted` |
| C70 | I2C output | Wire library as a buffer of 32 bytes and a count of acknowledgements | proved: `i2c_output`, `i2c_output_byte`, `i2c_output_refuted`, `hd_i2c_wire`, `hd_i2c_nack_refuted` |
| C71 | Arduino pins | direction, latch and timer output per pin; signal as specification | proved: `pins_frame`, `pins_digital`, `pins_new`, `pins_analog`, `pins_refuted`, `pins_display` |
| C72 | Example sketches: text on a display | composition of the text, view, controller and driver models down to the pins; screen as specification | proved: `sketch_lcd`, `sketch_i2c`, `sketch_lcd_refuted` |
| C73 | Example sketches: pages | navigation model composed with the display chain; picture of the pages shown as specification | proved: `sketch_pages`, `sketch_pages_same`, `sketch_pages_refuted` |
| C74 | Example sketches: timed tasks | per task state machine over the shared table; invariant on the slots; pins toggled counted by parity | proved: `sketch_tasks`, `sketch_beat`, `sketch_period`, `sketch_period_refuted` |
| C75 | Example sketches: counter task | the body as a program of the task macros; division with remainder as specification | proved: `sketch_counter`, `sketch_counter_largest_refuted` |
| C76 | Example sketches: button and input | button state machine and pin model composed; lamp as a fold over the states | proved: `sketch_button`, `sketch_follow` |
| C77 | PID in floating point | IEEE 754 operations of Coq's SpecFloat, each proved to be the exact result rounded; exact terms over integers as specification | proved: `pidf_bounded`, `pidf_accuracy`, `pidf_integers`, `pidf_nan_sticks`, `pidf_recovers`, `pidf_zero_time`, `pidf_stall_refuted` |
| C78 | Text controls that share an iterator | navigation model with the text control model in its leaves; invariant: at most one control is selected, it is the current one, and the iterator stands at its character; independent editors as specification | proved: `form_edits`, `form_safe`, `form_touched`, `form_nested_refuted` |
| C79 | Example sketches: text box | C78 composed with the display chain of C73; the pages drawn cover the same cells; closed form by induction on rounds | proved: `form_display`, `form_prefix`, `form_setup`, `form_textbox` |
| C80 | Streams byte by byte | byte-wise micro steps; invariant as in the coarse model, with the windows in which memory holds a torn cursor; torn values differ from the true ones by a multiple of 256 | proved: `tear_tx_fifo`, `tear_tx_drains`, `tear_tx_refused`, `tear_rx_fifo`, `tear_rx_not_empty`, `tear_rx_dropped`, `tear_rx_enabled`, `tear_tx_refused_refuted`, `tear_rx_not_empty_refuted`, `tear_rx_dropped_refuted`, `tear_tx_calls`, `tear_rx_stores` |
| C81 | Text on a serial port | composition of the text, floating point and stream models; an independent reader that splits lines and parses numerals | proved: `print_port`, `print_reads_back`, `print_sketches` |
| C82 | Distance sensor over serial ports | composition of the sensor and port models; invariant: the bytes in port and line are the answers not yet polled | proved: `urm_link`, `urm_link_no_loss`, `urm_link_fresh`, `urm_link_stale_refuted`, `urm_link_failed_refuted` |
| C83 | Motors at the pins of a board | composition of the motor and pin models; the truth table of the chip over pin signals as specification | proved: `motor_pins_command`, `motor_pins_steady`, `motor_pins_off`, `motor_pins_no_glitch`, `motor_pins_untimed`, `motor_pins_glitch_refuted` |
| C84 | Blocking delays | the functions of the Arduino core and avr-libc under Wait as models; modular arithmetic of the polling loop; error analysis of the float computation | proved: `delay_us`, `delay_us_refuted`, `delay_ms`, `delay_ms_early_refuted`, `delay_avr`, `delay_avr_exact`, `delay_avr_refuted`, `delay_profile` |
| C85 | Display timing with the real delays | map every delay of the C66 model through the C84 model; the mapped profile's coverage is exact by C66 | proved: `display_delays`, `display_delays_kept`, `display_delays_start`, `display_delays_start_i2c`, `display_delays_start_3wire`, `display_delays_commented`, `display_delays_refuted` |
| C86 | Example sketches: blink and page | composition of the pin and delay models, and of the page and display models; the sample writer is the full one without cursor calls | proved: `demo_blink`, `demo_blink_close`, `demo_page`, `demo_page_again` |
| C87 | USART streams as an optimising compiler may build them | small-step machine with an order of stores as parameter; an invariant over all schedules for the right orders, a failing schedule for each wrong one | proved: `opt_tx_fifo`, `opt_tx_awake`, `opt_tx_drains`, `opt_tx_refused`, `opt_rx_fifo`, `opt_rx_answers`, `opt_rx_drains`, `opt_tx_page_refuted`, `opt_rx_page_refuted` |
| C88 | Collections over shared memory | refinement of the shared memory to a family of lists that see each other's writes | proved: `share_lists`, `share_count`, `share_apart`, `share_refuted`, `share_string`, `share_string_refuted` |
| C89 | BitArray over signed types | bitwise reading of every operation below the width; histories refine a vector of bits | proved: `sbits_field_roundtrip`, `sbits_field_value`, `sbits_field_rejected`, `sbits_field_refuted`, `sbits_history`, `sbits_sign_refuted`, `sbits_reverse`, `sbits_shift`, `sbits_shift_refuted` |
| C90 | Task macros as C statements | small-step machine over the expanded statements; simulation in both directions with the task machine of C25 | proved: `macro_task`, `macro_shared_refuted`, `macro_return_refuted`, `macro_wait_refuted`, `macro_yield_refuted` |
| C91 | Ranges and Abs of floating point numbers | IEEE order related to the exact values; set semantics as in C19 and C20 | proved: `frange_membership`, `frange_clip`, `frange_clip_refuted`, `fvalue_container_set`, `fvalue_container_nan_refuted`, `fabs_value`, `fabs_zero_refuted` |
| C92 | Displays and motors on one chain of shift registers | pin events run on a model of the shift registers; each device's outputs equal, up to repeats, what its own calls alone give | proved: `chain_display`, `chain_motor`, `chain_motor_drive`, `chain_free`, `chain_null_refuted`, `chain_early_refuted` |
| C93 | Object ids keep delays apart | renaming of the ids in C22's simulation by per-object timers | proved: `ident_distinct`, `ident_timers`, `ident_timers_avr`, `ident_collision_refuted`, `ident_zero_refuted` |
| C94 | Debug messages | Log over a list of messages is a filter | proved: `debug_log`, `debug_can_log`, `debug_can_log_refuted` |
| C95 | Receiving a character while others are unread | refinement of buffer and shift register to a list of characters with their fates, composed with the invariant of C04 | proved: `hw_rx_account`, `hw_rx_prompt`, `hw_rx_latency`, `hw_rx_latency_tight`, `hw_rx_asleep`, `hw_try_read_next`, `hw_stream_account`, `hw_stream_lossless`, `hw_overrun_costs_more` |
| C96 | Sending a character while others are on their way | data and shift register as a queue of two, composed with the invariant of C04 | proved: `hw_tx_order`, `hw_tx_try`, `hw_tx_flush`, `hw_tx_flush_refuted`, `hw_tx_complete`, `hw_tx_complete_sticks`, `hw_tx_complete_refuted`, `hw_tx_wait_refuted`, `hw_tx_stream`, `hw_tx_stream_drains` |
| C97 | Emptying a stream while its interrupt is on | the two stores as steps; the invariant of C04 up to the first, the cells between the cursors after it | proved: `tx_flush_clean`, `tx_flush_stale`, `tx_flush_refuted`, `rx_clear_keeps` |
| C98 | From Write on one board to Read on another | composition of C95 and C96 | proved: `hw_link` |
| C99 | MIDI messages on every board | struct over bytes, simulation by the model with the layout of AVR | proved: `layout_message`, `layout_reader`, `layout_reader_decodes`, `layout_link`, `layout_copy`, `layout_overlap_refuted` |
| C100 | Characters bit by bit between two boards | line as a function of time, the receiver of the data sheet sample by sample, induction over frames | proved: `wire_format`, `wire_majority`, `wire_break`, `wire_pulse`, `wire_characters`, `wire_boards`, `wire_one_clock`, `wire_parity_refuted`, `wire_rate_refuted` |
| C101 | From Write to Read across two clocks | composition of C96, C100 and C95; simulation between samples and buffer events | proved: `wire_stream`, `wire_stream_rates` |
| C102 | A receiver on a line that carries anything | simulation of the sampling receiver with flags and the receive buffer; the receiver is idle after an idle frame from every state | proved: `noise_stream`, `noise_lossless`, `noise_read`, `noise_recovers`, `noise_stream_recovers`, `noise_midway_refuted`, `noise_parity_refuted` |
| C103 | Local variables and parameters of a task | two runs related by agreement on the variables surely set; composition with C90 | proved: `local_careful`, `local_stack`, `local_loop_refuted` |
| C104 | MIDI between two boards, bit by bit | the programs drive the port models; composition of C101 with the MIDI round trip | proved: `midi_wire_sent`, `midi_wire` |
| C105 | Interrupts served in time keep the streams in order | invariant: how many handler runs the hardware can still ask for at each step of a call | proved: `prompt_rx`, `prompt_tx`, `prompt_brief`, `prompt_link`, `prompt_wire`, `prompt_midi`, `prompt_noise`, `prompt_recovers`, `prompt_rx_needed`, `prompt_tx_needed` |
| C106 | Text between two boards | TextWriter drives the port model; invariant over the room left; composition of C81 and C105 | proved: `text_sent`, `text_fits`, `text_cut`, `text_wire`, `text_cut_refuted`, `text_length_refuted` |
| C107 | Distance sensor on the board's own USART | driver as a program on the two port models; invariant over the read cursor, the frames and the bytes at hand; composition with C97, C98 and C105 | proved: `urm_usart`, `urm_poll`, `urm_pending`, `urm_sensor`, `urm_in_turn`, `urm_wire`, `urm_turn_wire`, `urm_deaf`, `urm_size_refuted`, `urm_cut_refuted` |
| C108 | Register calls while interrupt handlers make them too | code splits each call of C61 into its accesses; a register is loaded, then stored, and handlers (lists of C61 calls) run in between. Bits against C61's specification: a bit differs from the main program's view only by a value a handler's call gives (shadow run without handlers); the handlers' bits agree with their calls alone if what is held equals what is stored. The loss is computed for any handler. | proved: `reg_values`, `reg_moment`, `reg_done`, `reg_handlers`, `reg_apart`, `reg_lost`, `reg_pins`, `reg_pin_main`, `reg_close` |
| C109 | Sending and receiving on one USART share a register | The enable bits of C04's two streams are bits 5 and 7 of one register, and the switch on is split into load, store, load, store. Invariant: C04's two invariants side by side, and a loaded value agrees with the register except in TXB8 and in a transmit interrupt that has been switched off meanwhile. | proved: `duplex_streams`, `duplex_drains`, `duplex_calls`, `duplex_accepts`, `duplex_stores`, `duplex_switch`, `duplex_handler_write_refuted` |
| C110 | A display at AVR pins while interrupt handlers run | The driver as calls of C108's machine, looked at after every instruction. Main program: the value loaded agrees with the register in the bits of the display, so the lines repeat or make the next step of the parallel driver of C45. Handlers: between two of them enable is high in the register and in the loaded value, so a store may move RS and data but makes no edge. | proved: `lcd_avr_new`, `lcd_avr_lines`, `lcd_avr_main`, `lcd_avr_view`, `lcd_avr_isr`, `lcd_avr_two`, `lcd_avr_init_refuted`, `lcd_avr_shared_refuted` |
| C111 | Pins and shift registers at AVR pins while interrupt handlers run | Levels of the pins after every instruction, compared with the list of writes up to repetition; for handlers an inductive relation that fixes the pins at rest between handlers. The chip of C20 is run on the levels seen; outside handlers clock and latch are low, so the data pin has no effect. | proved: `pins_avr_new`, `pins_avr_main`, `pins_avr_isr`, `shift_avr_main`, `shift_avr_value`, `shift_avr_display`, `shift_avr_isr`, `shift_avr_isr_display`, `shift_avr_two`, `shift_avr_shared_refuted` |
<!-- /TABLE -->

## Assumptions

`Print Assumptions` answers "Closed under the global context" for every theorem named in
`MANIFEST.json`: no axiom is used, neither of ours nor of the standard library.  `coqchk`, which lists
the axioms of every library loaded, also shows `Coq.ssr.ssrunder.Under_rel.*`; these are the fields
of a module type in the standard library and no theorem depends on them.

Hypotheses on the environment appear in the theorem statements.  They are of these kinds: template
arguments and sizes are in the range the C++ types allow; byte-valued registers hold bytes; where a
property is about a device (display controller, shift register, motor bridge, serial line, clock) the
device is an explicit model in the `*Spec.v` file.

## Checks on the translation

`RepoTests.v` replays the project's own unit tests on the model: one Example for each test method, with
the inputs of the test and the outcomes it asserts.  All of them hold.  They are a check on the
translation that does not come from the properties: the expected values are those of the project's
authors.  Not replayed are DelegateTest and FuncTest (wrappers that are not modelled), ArrayTest (it only
checks that code compiles) and PIDTest (its test method is disabled).
The sketches Array, Bit, BitArray and CollectionRef are replayed there too.

`seeded/LOG.jsonl` records the wrong programs the theorems were tried on.

## What is modelled and what is not

Modelled, function by function, with the source lines at each definition:

| Model file | Sources |
|---|---|
| `RingModel.v` | RingBuffer.h, BufferedInputStream.h |
| `StreamModel.v` | AVR/UsartOutputStream.h, AVR/UsartInputStream.h as main loop and interrupt handler |
| `ArrayModel.v` | Array.h, ArrayRef.h, FixedArray.h, FixedArrayRef.h, FixedString.h, StaticArray.h, Collection.h, CollectionRef.h |
| `ShareModel.v` | CollectionRef.h over FixedArrayRef.h, FixedArray.h, FixedString.h, several over the same memory |
| `FlashModel.v` | StaticArray.h, ProgMemAccessor.h, StaticString.h over program memory |
| `IteratorModel.v` | Iterator.h |
| `BitModel.v` | Bit.h, BitFlag.h, BitArray.h |
| `SignedBitsModel.v` | BitArray.h for signed types |
| `RangeModel.v` | Range.h, ValueContainer.h, Math.h |
| `ChainModel.v` | HD44780_DriverSerial3Wire.h and TB6612FNG_DriverSerial3Wire.h sharing one BitArray, down to the pin writes |
| `RangeFloatModel.v` | Range.h, ValueContainer.h, Math.h for T = float and T = double |
| `TimeModel.v` | Time.h, Arduino/Time_Arduino.h, Delays.h |
| `TaskModel.v` | Task.h, TimeoutTask.h |
| `MacroModel.v` | Task.h: the statements the macros expand to |
| `MidiWireModel.v` | MidiWriter.h and MidiReader.h on two boards: the programs of `LinkModel.v` on the ports of `HwTxModel.v`, `HwRxModel.v` and the line of `WireLinkModel.v` |
| `PromptModel.v` | when the handlers of AVR/UsartInputStream.h and AVR/UsartOutputStream.h get their turn (ATmega data sheet, "Reset and Interrupt Handling"), on the ports of `HwRxModel.v` and `HwTxModel.v` |
| `TextWireModel.v` | TextWriter.h over AVR/UsartOutputStream.h as a program on the port of `HwTxModel.v`; UsartOutputStream::getLength |
| `UrmWireModel.v` | URM37V32_Driver.h over AVR/UsartInputStream.h and AVR/UsartOutputStream.h as a program on the ports of `HwRxModel.v` and `HwTxModel.v` |
| `RegIsrModel.v` | The calls of `AvrModel.v` (Port.h, PowerReduction.h, Interrupt.h, Usart.h, UsartTransmit.h, UsartReceive.h, Bit.h 54-67) split into loads and stores of registers, with handlers between them. Which registers are changed by one instruction (sbi, cbi) is a parameter; UBRR is stored low byte first; the hardware changes no register by itself. |
| `DuplexModel.v` | AVR/UsartOutputStream.h 64-86 and AVR/UsartInputStream.h 67-88 on one USART, with UCSRB loaded and stored by Bit::Set (Bit.h 54-67) in separate steps; the ring buffers are those of `StreamModel.v`. Open, Close and Flush are left out; RXB8 is not written. |
| `AvrLcdModel.v` | HD44780_Driver.h 49-51, 65-79, 85-103, 126-131 over AVR/DigitalOutputPin.h 43-63, as calls of `RegIsrModel.v`, used by the main program and by handlers. Delays are left out here. |
| `PinIsrModel.v` | AVR/DigitalOutputPin.h 43-63 and Serial3WireOutput.h 36-96 over three such pins, as calls of `RegIsrModel.v`, used by the main program or by handlers. |
| `LocalModel.v` | Task.h with local variables and parameters: the machine of `MacroModel.v` with a new frame in every call |
| `ButtonModel.v` | PushButton.h, AVR/Button.h, DigitalInput.h |
| `MidiModel.v` | Midi.h, MidiMessage.h, MidiReader.h, MidiWriter.h |
| `LayoutModel.v` | MidiMessage.h, MidiReader.h, MidiWriter.h over the bytes of the message object, for any layout |
| `LinkModel.v` | MidiWriter.h over AVR/UsartOutputStream.h, a line, AVR/UsartInputStream.h under MidiReader.h |
| `ArduinoModel.v` | Arduino/StreamInputStream.h, Arduino/StreamOutputStream.h, Arduino/SerialI2COutput.h, Arduino/DigitalOutputPin.h, Arduino/DigitalInputPin.h, Arduino/AnalogOutputPin.h over the Arduino core |
| `TextModel.v` | TextWriter.h, TextFormatInfo.h |
| `RealModel.v` | TextWriter.h: WriteReal in floating point |
| `PidModel.v` | PID.h for T = long and T = int |
| `PidFloatModel.v` | PID.h for T = float and T = double |
| `UrmModel.v` | URM37V32_Driver.h, URM37V32_Controller.h |
| `ShiftModel.v` | Serial3WireOutput.h |
| `MotorModel.v` | TB6612FNG_Controller.h, TB6612FNG_Driver.h, TB6612FNG_DriverSerial3Wire.h |
| `HdModel.v` | HD44780_Driver.h, HD44780_DriverI2C.h, HD44780_DriverSerial3Wire.h, HD44780_Controller.h, HD44780_View.h, HD44780_ViewPort.h, HD44780_DisplayWriter.h |
| `HdTimeModel.v` | HD44780_Profile.h and the delays in the HD44780 drivers, controller and view |
| `UiModel.v` | Control.h, LabelControl.h, InputControl.h, UpDownControl.h, ControlContainer.h, Panel.h, PanelControlContainer.h, HorizontalPanel.h, VerticalPanel.h, Page.h (navigation), PageController.h |
| `PageModel.v` | Display of LabelControl.h, UpDownControl.h, TextControl.h, Panel.h, HorizontalPanel.h, VerticalPanel.h, Page.h (also Add), Line.h, through HD44780_DisplayWriter.h |
| `EditModel.v` | TextControl.h over FixedString.h and Iterator.h |
| `SketchModel.v` | the sketches LCD, I2CLCD, PageController, TimeoutTask, Task (CounterTask.h), PushButton, DigitalInput in Arduino Libraries/*/examples, composed from the models above |
| `PrintModel.v` | TextWriter.h with TextFormatInfo.h over Arduino/StreamOutputStream.h; the sketches TextWriter and TextFormatInfo |
| `UrmLinkModel.v` | URM37V32_Controller.h BeginDistance and EndDistance over Arduino/StreamInputStream.h and StreamOutputStream.h, with a sensor that answers |
| `MotorPinModel.v` | TB6612FNG_Controller.h and TB6612FNG_Driver.h over Arduino/DigitalOutputPin.h and AnalogOutputPin.h, any number of motors |
| `DelayModel.v` | Delay.h, Arduino/Delay_Arduino.h, AVR/Delay_Avr.h, with the functions of the Arduino core and avr-libc they call |
| `HdDelayModel.v` | HD44780_Profile.h over Delay.h: the durations of the display drivers' delays, in cycles |
| `DemoModel.v` | Blink.ino; Page.ino and LcdDisplayWriter.h (ATL_UI/examples/Page) |
| `TearModel.v` | StreamModel.v again, with cursors loaded and stored one byte at a time, in either byte order |
| `HwRxModel.v` | AVR/UsartReceive.h TryRead and AVR/UsartInputStream.h over the receive buffer and shift register of the USART, after the data sheet |
| `HwTxModel.v` | AVR/UsartTransmit.h and AVR/UsartOutputStream.h over data register, shift register and flags of the USART, after the data sheet; Flush, Close and Clear of both streams store by store |
| `WireModel.v` | the line between two USARTs set up by AVR/UsartConfig.h and AVR/Usart.h: frames as levels over time, the sampling receiver of the data sheet |
| `WireLinkModel.v` | the receiver of `WireModel.v` in front of the receive buffer of `HwRxModel.v`, with the receiving software after each sample |
| `NoiseModel.v` | AVR/UsartInputStream.h and AVR/UsartReceive.h on a line with any levels: the receiver of `WireModel.v` and the buffer of `HwRxModel.v` with the frame and parity error flags |
| `OptModel.v` | StreamModel.v a third time, with cursors in registers and the stores of a call in any order |
| `FormModel.v` | Panel.h, PanelControlContainer.h, HorizontalPanel.h, VerticalPanel.h, Page.h, PageController.h with TextControl.h in them over one iterator; the sketch TextBox |
| `AvrModel.v` | AVR/Port.h, AVR/DigitalInputPin.h, AVR/DigitalOutputPin.h, AVR/PowerReduction.h, AVR/Interrupt.h, AVR/UsartConfig.h, AVR/UsartRegisters.h, AVR/Usart.h, AVR/UsartTransmit.h, AVR/UsartReceive.h |
| `MiscModel.v` | IdentifiableObject.h (as a key of Delays.h), Debug.h |

Simplifications (each is also noted at its definition):

* Template composition is modelled by the composed behaviour; virtual dispatch and base classes by
  the function that is reached.
* Members left uninitialised by a constructor are arbitrary values in the model; where a theorem
  needs them zero this is a hypothesis and a finding.
* Interrupts preempt only between accesses to shared members; accesses to 16-bit cursors
  are split into bytes in `TearModel.v` only.  Reordering by the compiler is modelled in
  `OptModel.v` only, for each call by itself.
* Real time: for the display a delay lasts at least as long as asked and every write to pins or bus
  at least a given time (`HdTimeModel.v`); `delay_profile` proves it of Delay.h on an Arduino for all but
  4 microseconds of the first delay.  Elsewhere time enters only as the values the clock returns.
* Hardware registers are memory cells; the flags the hardware sets itself are inputs.
* Floating point: every operation is rounded to the type (no wider intermediate results), to nearest
  even, with subnormal numbers.  PID uses the IEEE 754 operations of Coq's `SpecFloat`;
  `FloatProofs.v` proves that these are the exact results rounded by the function `fl` of
  `RealModel.v`.  TextWriter::WriteReal uses `fl` directly, for every binary format with at least 24
  bits and without infinities and NaN (their conversion to uint32_t is undefined).
* The serial line of `LinkModel.v` keeps bytes until the receive interrupt takes them; the USART itself
  holds three and then drops (`HwRxModel.v`).
* The Arduino core: a serial port is a queue of bounded length, bytes arrive between calls and during
  Clear; Wire is a buffer of 32 bytes and a count of acknowledged bytes; a pin is a direction bit, a latch
  and the compare output of its timer.
* The MIDI message union has the layout of AVR (little endian, bytes without padding) in `MidiModel.v`;
  `LayoutModel.v` has any layout and proves the reports the same.

Not modelled: Delegate.h, Func.h, Data.h, VolatileData.h, Default.h, EnumScope.h,
NavigationController.h, DisplayWriter.h (interfaces and macros without logic, or
wrappers of one call).

## Findings

Claims of the documentation or of the evident intent that are false of the model.  Theorem names end
in `_refuted` unless another name is given.

Containers and streams
* RingBuffer: Read on an empty buffer corrupts it (`ring_underrun`).  An interrupt inside the
  wrap-around window of a cursor update duplicates or loses items (`tx_stream_any_schedule_refuted`,
  `rx_stream_any_schedule_refuted`), which happens when interrupts were off while two characters came or
  a call takes longer than a character (`prompt_rx_needed`, `prompt_tx_needed`); getLength, preempted, can report more than the capacity
  (`length_preempted_refuted`).
* Arrays with 32768 or more items are unusable (`array_large_unusable`); an out of range operator[]
  returns one shared element that can be written (`operator_index_default_refuted`).
* FixedArray::Clear clears as many bytes as there are items (`fixed_array_clear_all_refuted`).
* FixedString: SetAt at the last position removes the terminator; the capacity is cut to 8 bits.
* CollectionRef: two over one array overwrite each other's items (`share_refuted`); over a FixedString, Clear leaves
  the old text behind the new one, and 256 characters of capacity count as none (`share_string_refuted`).
* Collection::IndexOf returns a char, so positions from 128 on are wrong; StaticArray::IndexOf never
  returns for 256 or more items without a match (`static_index_of_diverges`).
* WrapAroundIterator on an empty container answers true (`wrap_around_empty`).
* BitArray: a field of length 0 at the end is an undefined shift; uint32_t masks are wrong with a
  16-bit int; Bit::IsTrue is wrong for the sign bit of signed types; BitFlag accepts the index
  MaxBits (`bitflag_edge`).
* BitArray of a signed type: a field that ends at the sign bit reads back negative (`sbits_field_refuted`), ShiftDown
  repeats the sign bit (`sbits_shift_refuted`), and the sign bit of an int is neither true nor false once set
  (`sbits_sign_refuted`).
* ValueContainer::Normalize on a new object reads uninitialised members; ClipValue on a reversed
  range returns the wrong limit (`range_clip_reversed`); Math::Abs of the most negative value.
  In floating point ClipValue lets NaN pass (`frange_clip_refuted`) and Abs(-0) is -0 (`fabs_zero_refuted`).
* Program memory: arrays beyond 64 KB read as something else (`flash_far_refuted`); an array of double
  is read through the accessor for integers, 1.0 as 1065353216.0 (`flash_double_refuted`);
  StaticString::Read leaves no terminator when the string fills the buffer (`static_string_refuted`).

Time
* getDeltaTime and Delays::getLastDeltaTime keep 16 bits.  Delays: polling twice per Update fires early, an Update without a poll
  is lost, id 0 completes at once or never, a full table is written out of bounds (`delays_capacity`).
* Task macros: without braces under `if` or `while` they do something else (`macro_return_refuted`,
  `macro_wait_refuted`, `macro_yield_refuted`); two task methods cannot share `_task` (`macro_shared_refuted`);
  a loop counter that is a local variable is lost at every pause (`local_loop_refuted`).
* TimeoutTask: one interval per period is not counted.  PushButton: `_task` is not initialised; the
  first scan is not debounced.

MIDI
* IsChannelMessage is false for raw bytes E1..EF; SetDataByte2 only ORs; the reader never
  resynchronises on a new status byte, locks on system exclusive and loses messages around undefined
  real-time bytes; the writer does not mask channel pressure, sends only F0 for system exclusive and
  keeps running status after tune request.  Read answers false for bytes it takes and ignores
  (`midi_read_true_refuted`), so reading until it answers false can stop with messages waiting.
* MidiMessage: Beats shares a byte with Note on AVR and not on 32-bit boards (`layout_overlap_refuted`).
* Over the serial streams nothing is received until the application turns the receive interrupt on
  (`midi_link_deaf_refuted`); a full transmit buffer loses a byte and the receiver reports a note nobody
  wrote (`midi_link_overflow_refuted`).

Arduino
* StreamInputStream::Clear does not return while bytes keep arriving (`arduino_clear_refuted`);
  StreamOutputStream::Flush is documented to remove all content, but flush of Arduino waits until it is
  sent.  When the 63 bytes of the receive buffer overflow, MidiReader reports notes nobody wrote
  (`arduino_midi_overflow_refuted`).
* SerialI2COutput drops all but the first 32 bytes and answers true (`i2c_output_refuted`); the display
  driver ignores a missing acknowledgement and the display takes other characters from then on
  (`hd_i2c_nack_refuted`).
* Pins: the constructor with initial value first drives the old value; getValue and Toggle of an
  AnalogOutputPin turn its PWM off, Write(true) is a duty cycle of 1 (`pins_refuted`).

Text
* Write(char) prints the code; the digit buffer overruns for bases 2 and 3 (`text_buffer_overrun`);
  the most negative value overflows; "-0.00"; magnitudes from 2^32 on are undefined; with a 24-bit
  double 8388609 is written as 8388610 and 2.675 as 2.68 (`text_write_real_float_refuted`); the line
  end is "\n\r".

Control and devices
* PID: members uninitialised; for T = int the derivative sign is wrong and the integral wraps; delta
  time 0 divides by zero.  For T = float one NaN reading sticks (`pidf_nan_sticks`), delta time 0 gives NaN
  or an end of the range (`pidf_zero_time`), and a large integral no longer moves (`pidf_stall_refuted`).
* URM37: no resynchronisation after a lost byte; readings with one byte 255 are dropped; WriteEEPROM
  never returns without an answer; EndTemperature does not compile (ReceiveRespone).
* Serial3WireOutput::Write never returns and never latches (`uint8_t i >= 0`), so the serial motor and
  display drivers hang.  getDataRegister does not compile.
* TB6612FNG: speed 0 is PWM 1; changing between Stop and Break drives the motor for a moment.
* HD44780: Initialize does not lower RS; getEntryCursorDirection does not compile; a display-shift
  setter before SetEntryMode reverses the text; ClearDisplay changes the device's direction but not
  the register copy; the view's position is uninitialised and off by one at the ends of rows; rows=3
  overlaps; ViewPort never scrolls; SetCursor takes one DontCare as a coordinate.
* HD44780: the delays of the default profile are shorter than the data sheet asks for: clear and home
  get too little time, power-up waits 10 ms where 15 ms are needed, and nothing waits after the
  function set or a character, so a fast port overruns the display (`timing_default_refuted`,
  `timing_start_refuted`).  The values in the comments of the profile suffice as soon as a
  write takes a microsecond (`timing_commented`).

Example sketches
* LCD: with more lines than rows a line is lost each time around (`sketch_lcd_refuted`).  PageController:
  the display is not cleared between pages (`sketch_pages_refuted`).  TimeoutTask: the period is one round
  longer than the timeout (`sketch_period`, `sketch_period_refuted`).  Task: "Counted to N" after N + 1 counts
  (`sketch_counter`).  DigitalInput: the lamp shows the input only after its first high level
  (`sketch_follow`).

User interface
* LabelControl.h, ControlContainer.h and PageController.h name enum values that do not exist.
* setState(Selected) selects disabled or hidden controls; TrySelect on a panel answers true without a
  change; IsOfType(Panel) is true for every control; two fields can be focused at once; moving lands
  on disabled controls and leaving makes them normal; an UpDown control inside a vertical panel never
  sees Up and Down.
* The cursor of a text control appears on the top line whatever its line (`page_cursor_refuted`); what
  follows a vertical panel on a line appears on the row where the panel ended, and the cursor of a field in
  such a panel is on the wrong row (`page_tree_refuted`); hiding a control
  leaves its text on the display; without current control the display may keep blinking; a line
  with a given position and one without can get the same row.
* A container with the same control twice loops; more than 127 controls.
* TextControl: capacity 0 overwrites the terminator; Down on a blank writes NUL; characters outside
  the set continue from an old position; 256 or more characters search for ever.  With one iterator for
  several controls, one inside a panel on a line can be left selected and then continues from the
  character of another (`form_nested_refuted`).

AVR
* USART: very low baud rates wrap around and are accepted; the rate is never below the one asked for
  (no rounding to the nearest); deviations from 32768 on wrap; register value 0 reads back as rate 0;
  baud rate 0 divides by zero; a new configuration says it is a synchronous slave; even and odd parity
  are exchanged; 9 data bits select a reserved format.  Flush discards nothing or spins, and so
  UsartInputStream::Clear spins when nothing has arrived.  Read drops a good character when an
  overrun is flagged (`hw_overrun_costs_more`).  UsartTransmit::Flush returns with a character still
  being sent (`hw_tx_flush_refuted`); getIsComplete stays true once a transmission has ended
  (`hw_tx_complete_refuted`), and before the first one WaitIsComplete never returns
  (`hw_tx_wait_refuted`).  UsartOutputStream::Flush and Close, interrupted between the two stores of
  RingBuffer::Clear, can send a byte that nobody wrote (`tx_flush_refuted`).  InitAsync(14400) at 1 MHz
  answers true and makes 15625: another board hears a different character, without an error flag
  (`wire_rate_refuted`); a board of another make, set to the same parity, finds the parity of every
  character wrong (`wire_parity_refuted`), and UsartInputStream then never answers anything nor tells
  why (`noise_parity_refuted`).  A receiver opened amid characters sent without pauses can mishear all of
  them without an error (`noise_midway_refuted`).
* TextWriter over UsartOutputStream: a text that does not fit into what is free of the buffer is cut off, which neither
  Write tells (`text_cut`, `text_cut_refuted`: 12345 and 6 are read as 1236); UsartOutputStream::getLength returns
  a uint8_t, and so 0 for 256 waiting characters (`text_length_refuted`).
* EnablePullup(false) enables; an output pin with an initial value first drives the old one;
  getEnableUsart tests the wrong bits; the pin change mask of port D is never written.
* Registers shared with a handler: no call switches interrupts off around `|=` and `&=`, so a handler's change of the
  same register between load and store is lost (`reg_lost`, `reg_pins`): another pin of the port, or the transmit
  stream's interrupt, which the handler switched off and which is on again.  On ports the compiler's sbi and cbi avoid it.
* Stream buffers above 256 bytes: the main loop loads the 16-bit cursors byte by byte, and one interrupt
  between the bytes is enough for Write to refuse a byte with half the buffer free, for Read to answer -1
  with 255 bytes queued, or for a received character to be dropped with half the buffer free
  (`tear_*_refuted`).  Up to 256 bytes none of these happen.
* URM37 over UsartInputStream: the driver asks getLength before it reads, and only Read turns the receive interrupt on, so
  without a Read of the program's own nothing is ever received (`urm_deaf`).  With a buffer whose size is not divisible by
  four, a handler run between the comparison and the subtraction of getLength lets it answer more than is there:
  ReceiveResponse takes bytes of 255 for missing ones and the frames stay shifted (`urm_size_refuted`); with sizes divisible
  by four the cursor is never within a frame of the end, and it cannot happen (`urm_usart`).
* URM37 over a port: a program that gives up waiting and begins anew gets the old distance for the new
  command (`urm_link_stale_refuted`); a failed measurement looks like an empty port, so waiting for it
  never ends (`urm_link_failed_refuted`).
* Delay on an Arduino: above 16385 microseconds Wait is always too short, Wait(16386) takes less than 5 and
  Wait(65536) nothing (`delay_us_refuted`); a delay in milliseconds can end up to 4 microseconds early.
  On AVR a delay of 2^32 cycles or more is undefined.
* Display profile on an Arduino: a delay above 16385 microseconds is too short, so a slower profile (16.4 ms
  after clear) loses characters that the faster one does not (`display_delays_refuted`).
* USART streams, optimised: the cursors are not volatile, so nothing keeps a compiler from storing the write cursor
  before the item, or switching the interrupt on before either; bytes are then sent that were never written, or left
  unsent (`opt_tx_fifo`, `opt_tx_awake`).  On a machine with byte-wise stores a buffer across a 256-byte boundary
  fails in every order (`opt_tx_page_refuted`, `opt_rx_page_refuted`).
* Shift registers: TB6612FNG_DriverSerial3Wire::Send reads through `_dataReg` without the NULL test the display's
  driver has (`chain_null_refuted`).  The first setDataRegister writes the whole array, so a display that is
  attached later may see its enable line fall (`chain_early_refuted`): attach displays first.
* URM37 modes: SetAutonomousTriggerMode switches the mode before it writes the threshold, so a failure in between
  leaves the sensor running on a mixed threshold (`urm_autonomous_half_refuted`).
* Object ids: getId is the address cut to 16 bits, so on boards with more than 64 KB of memory (a Due has 96 KB) two
  objects can share an id, and the delay of one then ends early (`ident_collision_refuted`);
  an object at a multiple of 64 KB gets id 0, with which no delay waits (`ident_zero_refuted`).  The cast compiles
  there only with -fpermissive.
* Debug::CanLog answers true when there is no AtlDebugWrite (`debug_can_log_refuted`), so work done to build a
  message is done for nothing.
* UsartOutputStream::Write called in an interrupt handler while the main program is in UsartInputStream::Read of the
  same USART can leave its byte in the buffer with the interrupt off (`duplex_handler_write_refuted`), since both
  switch bits of UCSRB.
* HD44780_Driver::Initialize does not set RS before its first nibble. Called by an interrupt handler after a store
  of the main program to the same port has undone the RS of an earlier command, that nibble goes to the data register
  (`lcd_avr_init_refuted`). A display used by the main program and by a handler mixes their nibbles
  (`lcd_avr_shared_refuted`).
* One Serial3WireOutput used by the main program and by a handler: a value written in the middle of another shifts it along, the outputs show neither (C111, `shift_avr_shared_refuted`).
* Read only, not modelled: VolatileData.h does not compile (`operator=` has no return type and the conversion
  operator has one), and Delegate::Invoke does not compile when used with `(instance->*Callback())`.
