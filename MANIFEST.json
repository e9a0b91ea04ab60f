{
 "claims": [
  {
   "property": "C01",
   "status": "proved",
   "theorems": [
    "ring_fifo"
   ],
   "note": "Refinement to a list queue for all histories that never read an empty queue."
  },
  {
   "property": "C02",
   "status": "proved",
   "theorems": [
    "ring_underrun",
    "ring_underrun_stale",
    "ring_read_empty_harmless_refuted"
   ],
   "note": "Characterises the unguarded Read; the harmless reading is refuted."
  },
  {
   "property": "C03",
   "status": "proved",
   "theorems": [
    "buffered_input_stream"
   ],
   "note": "Items with integer values 0..255; any history."
  },
  {
   "property": "C04",
   "status": "proved",
   "theorems": [
    "tx_stream_fifo",
    "rx_stream_fifo",
    "rx_stream_no_false_empty",
    "rx_stream_first_read",
    "tx_stream_any_schedule_refuted",
    "rx_stream_any_schedule_refuted",
    "length_preempted_refuted",
    "length_preempted",
    "tx_stream_calls",
    "tx_stream_accepts",
    "rx_stream_stores"
   ],
   "note": "Proved for schedules with at most one handler run per wrap-around window; both directions refuted without that restriction. Byte-wise cursor accesses are C80."
  },
  {
   "property": "C05",
   "status": "proved",
   "theorems": [
    "array_reads_total",
    "array_large_unusable"
   ],
   "note": "Array and ArrayRef."
  },
  {
   "property": "C06",
   "status": "proved",
   "theorems": [
    "fixed_array_last_write",
    "operator_index_default_refuted"
   ],
   "note": "Finding: the non-const operator[] read at an invalid index returns the shared dummy, not the default."
  },
  {
   "property": "C07",
   "status": "proved",
   "theorems": [
    "fixed_array_clear",
    "fixed_array_clear_bytes",
    "fixed_array_clear_all_refuted"
   ],
   "note": "Byte-level model; finding: Clear is incomplete for multi-byte items."
  },
  {
   "property": "C08",
   "status": "proved",
   "theorems": [
    "fixed_string_terminated",
    "fixed_string_setat_refuted",
    "fixed_string_capacity",
    "fixed_string_bytes"
   ],
   "note": "Finding: SetAt(MaxChars, c) removes the terminator; getCapacity is truncated to 8 bits."
  },
  {
   "property": "C09",
   "status": "proved",
   "theorems": [
    "collection_is_list"
   ],
   "note": "Refinement to a bounded list."
  },
  {
   "property": "C10",
   "status": "proved",
   "theorems": [
    "collection_index_of",
    "first_pos_meaning",
    "collection_index_of_refuted"
   ],
   "note": "char taken as signed 8 bit."
  },
  {
   "property": "C11",
   "status": "proved",
   "theorems": [
    "iterate_forward",
    "iterate_backward",
    "iterate_again",
    "iterator_moves",
    "iterator_move_to"
   ],
   "note": "ResetToEnd mixed in freely needs n <= 32766 (int16 overflow otherwise)."
  },
  {
   "property": "C12",
   "status": "proved",
   "theorems": [
    "wrap_around_cycle",
    "wrap_around_inverse",
    "wrap_around_start",
    "wrap_around_empty"
   ],
   "note": ""
  },
  {
   "property": "C13",
   "status": "proved",
   "theorems": [
    "static_array_reads",
    "static_index_of",
    "static_index_of_diverges"
   ],
   "note": ""
  },
  {
   "property": "C14",
   "status": "proved",
   "theorems": [
    "bitarray_field_roundtrip",
    "bitarray_field_value",
    "bitarray_field_rejected",
    "bitarray_empty_field_refuted"
   ],
   "note": "All widths of T and int; finding: an empty field at index MaxBits is an undefined shift for T as wide as int."
  },
  {
   "property": "C15",
   "status": "proved",
   "theorems": [
    "bitarray_history",
    "bitarray_uint32_refuted"
   ],
   "note": "T not wider than int (8/16 bit on AVR); refuted for uint32_t on a 16-bit int."
  },
  {
   "property": "C16",
   "status": "proved",
   "theorems": [
    "bitarray_reverse",
    "bitarray_reverse_twice",
    "bitarray_reverse8",
    "bitarray_reverse16"
   ],
   "note": ""
  },
  {
   "property": "C17",
   "status": "proved",
   "theorems": [
    "bit_writes",
    "bit_reads",
    "bit_toggle_twice",
    "bit_signed_refuted",
    "bit_uint32_int16"
   ],
   "note": ""
  },
  {
   "property": "C18",
   "status": "proved",
   "theorems": [
    "bitflag_in_range",
    "bitflag_out_of_range",
    "bitflag_edge"
   ],
   "note": "In range it equals Bit, whose behaviour is C17."
  },
  {
   "property": "C19",
   "status": "proved",
   "theorems": [
    "range_membership",
    "range_clip",
    "range_clip_reversed"
   ],
   "note": "Integer value types (total order)."
  },
  {
   "property": "C20",
   "status": "proved",
   "theorems": [
    "value_container_set",
    "value_container_getters",
    "value_container_normalize_new_refuted"
   ],
   "note": "Histories that do not normalise an uninitialised container."
  },
  {
   "property": "C21",
   "status": "proved",
   "theorems": [
    "time_deltas_exact",
    "time_deltas_modulo",
    "time_conversions",
    "time_ex_delta",
    "time_ex_start"
   ],
   "note": "getDeltaTime keeps 16 bits."
  },
  {
   "property": "C22",
   "status": "proved",
   "theorems": [
    "delay_fires_at_first_opportunity",
    "delay_never_early",
    "delay_double_poll_early_refuted",
    "delay_skipped_poll_late_refuted"
   ],
   "note": ""
  },
  {
   "property": "C23",
   "status": "proved",
   "theorems": [
    "delays_independent",
    "delays_capacity",
    "delays_last_delta"
   ],
   "note": ""
  },
  {
   "property": "C24",
   "status": "proved",
   "theorems": [
    "delays_capacity",
    "delay_id_zero_immediate",
    "delay_id_zero_never"
   ],
   "note": ""
  },
  {
   "property": "C25",
   "status": "proved",
   "theorems": [
    "task_resumes",
    "task_spec_deterministic",
    "task_one_answer_per_call",
    "task_straight_line"
   ],
   "note": "Local variables are C103."
  },
  {
   "property": "C26",
   "status": "proved",
   "theorems": [
    "timeout_task_fires",
    "timeout_task_due",
    "timeout_task_is_task"
   ],
   "note": ""
  },
  {
   "property": "C27",
   "status": "proved",
   "theorems": [
    "push_button_refines",
    "push_button_transitions",
    "push_button_debounce",
    "push_button_first_scan_refuted"
   ],
   "note": "_task assumed zero-initialised."
  },
  {
   "property": "C28",
   "status": "proved",
   "theorems": [
    "push_button_refines",
    "push_button_transitions",
    "push_button_hold"
   ],
   "note": ""
  },
  {
   "property": "C29",
   "status": "proved",
   "theorems": [
    "digital_input_edges"
   ],
   "note": ""
  },
  {
   "property": "C30",
   "status": "proved",
   "theorems": [
    "midi_classification",
    "midi_is_channel_refuted"
   ],
   "note": "Exact answers on all 256 bytes; IsChannelMessage is wrong for raw bytes E1..EF."
  },
  {
   "property": "C31",
   "status": "proved",
   "theorems": [
    "midi_message_roundtrip",
    "midi_message_fields",
    "midi_message_of_fields",
    "midi_message_new",
    "midi_set_data2_twice_refuted"
   ],
   "note": "Union layout of AVR."
  },
  {
   "property": "C32",
   "status": "proved",
   "theorems": [
    "midi_reader_decodes",
    "midi_read_calls"
   ],
   "note": ""
  },
  {
   "property": "C33",
   "status": "proved",
   "theorems": [
    "midi_reader_arbitrary_input",
    "midi_reader_sysex_locks",
    "midi_reader_resync_refuted",
    "midi_reader_undefined_refuted",
    "midi_read_false",
    "midi_read_idle",
    "midi_read_true_refuted"
   ],
   "note": "The reader does not resynchronise on a new status byte; see findings."
  },
  {
   "property": "C34",
   "status": "proved",
   "theorems": [
    "midi_writer_legal",
    "midi_writer_reader",
    "midi_writer_refuted"
   ],
   "note": "System exclusive messages and tune request through Write(MessageTypes) excluded; see findings."
  },
  {
   "property": "C35",
   "status": "proved",
   "theorems": [
    "text_numeral_unique",
    "text_write_unsigned",
    "text_write_int16",
    "text_write_int32",
    "text_write_signed_other_base",
    "text_write_most_negative_refuted"
   ],
   "note": ""
  },
  {
   "property": "C36",
   "status": "proved",
   "theorems": [
    "text_buffer_overrun",
    "text_buffer_overrun_any"
   ],
   "note": ""
  },
  {
   "property": "C37",
   "status": "proved",
   "theorems": [
    "text_write_string",
    "text_write_char",
    "text_write_char_refuted",
    "text_write_line"
   ],
   "note": "Write(char) is refuted against its documentation."
  },
  {
   "property": "C38",
   "status": "proved",
   "theorems": [
    "pid_output_refines",
    "pid_defined",
    "pid_defined_iff",
    "pid_bounded",
    "pid_integral_sum",
    "pid_no_windup",
    "pid_dead_band",
    "pid_uninitialised_refuted",
    "pid_int_exact",
    "pid_int_refuted",
    "pid_int_falling_refuted",
    "pid_zero_time_refuted"
   ],
   "note": "T = long and T = int; floating point T is C77."
  },
  {
   "property": "C39",
   "status": "proved",
   "theorems": [
    "urm_send_receive",
    "urm_single_byte_detected",
    "urm_needs_four",
    "urm_poll_frames",
    "urm_poll_keeps_up",
    "urm_eeprom",
    "urm_eeprom_spins",
    "urm_autonomous_bytes",
    "urm_autonomous",
    "urm_passive",
    "urm_autonomous_replies",
    "urm_passive_reply",
    "urm_autonomous_half_refuted",
    "urm_lost_byte_refuted"
   ],
   "note": "Resynchronisation after a lost byte is refuted."
  },
  {
   "property": "C40",
   "status": "proved",
   "theorems": [
    "urm_distance",
    "urm_distance_short",
    "urm_distance_255_refuted",
    "urm_temperature",
    "urm_degrees",
    "urm_measure_distance",
    "urm_measure_temperature",
    "urm_commands"
   ],
   "note": "EndTemperature calls a misspelled base method; it is modelled as if the name were right."
  },
  {
   "property": "C41",
   "status": "proved",
   "theorems": [
    "shift_write_reverse",
    "shift_outputs_stable",
    "shift_write_refuted"
   ],
   "note": "T no wider than int. Write is refuted: it never returns."
  },
  {
   "property": "C42",
   "status": "proved",
   "theorems": [
    "motor_last_command",
    "motor_forgets",
    "motor_no_glitch",
    "motor_glitch_refuted",
    "motor_speed_zero_refuted",
    "motor_serial_refuted"
   ],
   "note": "The serial variant is refuted because Serial3WireOutput::Write never returns."
  },
  {
   "property": "C43",
   "status": "proved",
   "theorems": [
    "hd_parallel",
    "hd_i2c",
    "hd_3wire",
    "hd_bytes",
    "hd_initialise",
    "hd_controller_initialise",
    "hd_initialise_refuted"
   ],
   "note": "Timing (HD44780_Profile) is the subject of C66 and C85. For 3-wire, the values handed to Serial3WireOutput; its Write is refuted under C41."
  },
  {
   "property": "C44",
   "status": "proved",
   "theorems": [
    "hd_settings",
    "hd_controller",
    "hd_direction",
    "hd_direction_refuted"
   ],
   "note": "getEntryCursorDirection does not compile; its register bit is used."
  },
  {
   "property": "C45",
   "status": "proved",
   "theorems": [
    "hd_view",
    "hd_cells_distinct",
    "hd_view_refuted"
   ],
   "note": "Calls that stay on the screen; the rest is refuted."
  },
  {
   "property": "C46",
   "status": "proved",
   "theorems": [
    "hd_viewport_refuted",
    "hd_viewport_right",
    "hd_viewport_left"
   ],
   "note": ""
  },
  {
   "property": "C47",
   "status": "proved",
   "theorems": [
    "ui_set_state",
    "ui_state_history",
    "ui_select",
    "ui_select_refuted",
    "ui_types",
    "ui_types_refuted",
    "ui_getters"
   ],
   "note": "LabelControl.h, ControlContainer.h and PageController.h name enum values that do not exist; read as the values meant."
  },
  {
   "property": "C48",
   "status": "proved",
   "theorems": [
    "ui_focus",
    "ui_focus_refuted",
    "ui_nav_frame",
    "ui_moves",
    "ui_move_answer",
    "ui_first",
    "ui_horizontal",
    "ui_vertical",
    "ui_page_enter",
    "ui_page_selected",
    "ui_page_lines",
    "ui_focus_lines_refuted",
    "ui_disabled_refuted",
    "ui_edit_refuted"
   ],
   "note": ""
  },
  {
   "property": "C49",
   "status": "proved",
   "theorems": [
    "ui_container",
    "ui_walk",
    "ui_prev_next",
    "ui_container_refuted"
   ],
   "note": ""
  },
  {
   "property": "C50",
   "status": "proved",
   "theorems": [
    "ui_edit_safe",
    "ui_edit",
    "ui_text_field",
    "ui_edit_refuted_chars"
   ],
   "note": ""
  },
  {
   "property": "C51",
   "status": "proved",
   "theorems": [
    "usart_ubrr",
    "usart_choice",
    "usart_rate_bounds",
    "usart_get_rate",
    "usart_mode",
    "usart_rate_refuted"
   ],
   "note": "Claims that fail are refuted by usart_rate_refuted."
  },
  {
   "property": "C52",
   "status": "proved",
   "theorems": [
    "usart_open",
    "usart_config",
    "usart_frame",
    "usart_frame_refuted"
   ],
   "note": "Parity and 9 data bits are refuted."
  },
  {
   "property": "C53",
   "status": "proved",
   "theorems": [
    "port_bits",
    "port_directions",
    "pin_construct",
    "port_refuted"
   ],
   "note": "EnablePullup(false) is refuted."
  },
  {
   "property": "C54",
   "status": "proved",
   "theorems": [
    "usart_power",
    "usart_power_getter_refuted"
   ],
   "note": "The getters are refuted."
  },
  {
   "property": "C55",
   "status": "proved",
   "theorems": [
    "tx_stream_fifo",
    "tx_stream_drains"
   ],
   "note": "Same schedule restriction as C04."
  },
  {
   "property": "C56",
   "status": "proved",
   "theorems": [
    "bitarray_shift"
   ],
   "note": ""
  },
  {
   "property": "C57",
   "status": "proved",
   "theorems": [
    "math_abs_value"
   ],
   "note": ""
  },
  {
   "property": "C58",
   "status": "proved",
   "theorems": [
    "avr_button_state",
    "avr_button_value"
   ],
   "note": ""
  },
  {
   "property": "C59",
   "status": "proved",
   "theorems": [
    "text_write_real_float",
    "text_write_real_nearest",
    "text_write_real_whole",
    "text_write_real_total",
    "text_write_real_large",
    "text_write_real_float_refuted",
    "text_write_real_exact",
    "text_write_real_refuted"
   ],
   "note": "text_write_real_exact is the same algorithm over exact fractions. Floating point operations round to nearest even (IEEE 754); infinities and NaN are not modelled, their conversion is undefined."
  },
  {
   "property": "C60",
   "status": "proved",
   "theorems": [
    "hd_writer_goto",
    "hd_writer_cursor",
    "hd_writer_hide",
    "hd_writer_cursor_refuted"
   ],
   "note": ""
  },
  {
   "property": "C61",
   "status": "proved",
   "theorems": [
    "avr_registers",
    "avr_addresses",
    "avr_bit",
    "usart_close",
    "pin_change_refuted"
   ],
   "note": "Registers are memory cells; effects of the hardware on them are not modelled."
  },
  {
   "property": "C62",
   "status": "proved",
   "theorems": [
    "usart_write",
    "usart_roundtrip"
   ],
   "note": "The line is an ideal queue."
  },
  {
   "property": "C63",
   "status": "proved",
   "theorems": [
    "usart_result",
    "usart_read",
    "usart_try_read"
   ],
   "note": ""
  },
  {
   "property": "C64",
   "status": "proved",
   "theorems": [
    "usart_flush_refuted"
   ],
   "note": ""
  },
  {
   "property": "C65",
   "status": "proved",
   "theorems": [
    "page_draw",
    "page_cursor",
    "page_cursor_refuted",
    "page_history",
    "page_start",
    "page_wire",
    "page_controller",
    "page_add_rows",
    "page_add_rows_refuted",
    "page_hidden_refuted",
    "page_blink_refuted",
    "page_tree",
    "page_tree_refuted"
   ],
   "note": "Pages of horizontal lines of labels and fields, and panels in panels to any depth (page_tree); pages inside pages are modelled but not covered."
  },
  {
   "property": "C66",
   "status": "proved",
   "theorems": [
    "timing_parallel",
    "timing_i2c",
    "timing_3wire",
    "timing_start_parallel",
    "timing_start_i2c",
    "timing_start_3wire",
    "timing_exact",
    "timing_start_exact",
    "timing_default",
    "timing_default_refuted",
    "timing_start_refuted",
    "timing_default_waits",
    "timing_commented",
    "timing_start_exact_i2c",
    "timing_start_exact_3wire"
   ],
   "note": "The delay functions are assumed to wait at least as long as asked."
  },
  {
   "property": "C67",
   "status": "proved",
   "theorems": [
    "midi_link",
    "midi_link_arrives",
    "midi_link_deaf_refuted",
    "midi_link_overflow_refuted"
   ],
   "note": "The line keeps bytes until the receive interrupt takes them; loss in the receiver's hardware is not modelled."
  },
  {
   "property": "C68",
   "status": "proved",
   "theorems": [
    "flash_array_reads",
    "flash_index_of",
    "flash_far_refuted",
    "flash_double_refuted",
    "static_string_read",
    "static_string_refuted"
   ],
   "note": "pgm_read and strncpy_P as documented by avr-libc."
  },
  {
   "property": "C69",
   "status": "proved",
   "theorems": [
    "arduino_streams",
    "arduino_stream_answers",
    "arduino_clear_ends",
    "arduino_clear_refuted",
    "arduino_midi",
    "arduino_midi_overflow_refuted"
   ],
   "note": "HardwareSerial as a bounded queue; bytes arrive between calls and during Clear."
  },
  {
   "property": "C70",
   "status": "proved",
   "theorems": [
    "i2c_output",
    "i2c_output_byte",
    "i2c_output_refuted",
    "hd_i2c_wire",
    "hd_i2c_nack_refuted"
   ],
   "note": "The Wire library as documented."
  },
  {
   "property": "C71",
   "status": "proved",
   "theorems": [
    "pins_frame",
    "pins_digital",
    "pins_new",
    "pins_analog",
    "pins_refuted",
    "pins_display"
   ],
   "note": "pinMode, digitalWrite, digitalRead and analogWrite as in the Arduino core for AVR."
  },
  {
   "property": "C72",
   "status": "proved",
   "theorems": [
    "sketch_lcd",
    "sketch_i2c",
    "sketch_lcd_refuted"
   ],
   "note": "Driver delays are C66. The latch of RS must be low at reset."
  },
  {
   "property": "C73",
   "status": "proved",
   "theorems": [
    "sketch_pages",
    "sketch_pages_same",
    "sketch_pages_refuted"
   ],
   "note": "Pages of horizontal lines without selected control, as in the sketch."
  },
  {
   "property": "C74",
   "status": "proved",
   "theorems": [
    "sketch_tasks",
    "sketch_beat",
    "sketch_period",
    "sketch_period_refuted"
   ],
   "note": ""
  },
  {
   "property": "C75",
   "status": "proved",
   "theorems": [
    "sketch_counter",
    "sketch_counter_largest_refuted"
   ],
   "note": ""
  },
  {
   "property": "C76",
   "status": "proved",
   "theorems": [
    "sketch_button",
    "sketch_follow"
   ],
   "note": ""
  },
  {
   "property": "C77",
   "status": "proved",
   "theorems": [
    "pidf_bounded",
    "pidf_accuracy",
    "pidf_integers",
    "pidf_nan_sticks",
    "pidf_recovers",
    "pidf_zero_time",
    "pidf_stall_refuted"
   ],
   "note": "Round to nearest even, every operation rounded to T. FloatProofs.v proves the library's operations equal to rounding the exact result."
  },
  {
   "property": "C78",
   "status": "proved",
   "theorems": [
    "form_edits",
    "form_safe",
    "form_touched",
    "form_nested_refuted"
   ],
   "note": "Up to 127 characters, all different; texts of 1 to 255 characters of the set."
  },
  {
   "property": "C79",
   "status": "proved",
   "theorems": [
    "form_display",
    "form_prefix",
    "form_setup",
    "form_textbox"
   ],
   "note": "The cursor of an edited control is always in the top row, the finding of C65."
  },
  {
   "property": "C80",
   "status": "proved",
   "theorems": [
    "tear_tx_fifo",
    "tear_tx_drains",
    "tear_tx_refused",
    "tear_rx_fifo",
    "tear_rx_not_empty",
    "tear_rx_dropped",
    "tear_rx_enabled",
    "tear_tx_refused_refuted",
    "tear_rx_not_empty_refuted",
    "tear_rx_dropped_refuted",
    "tear_tx_calls",
    "tear_rx_stores"
   ],
   "note": "Without the limit on the handler the streams fail, see C04."
  },
  {
   "property": "C81",
   "status": "proved",
   "theorems": [
    "print_port",
    "print_reads_back",
    "print_sketches"
   ],
   "note": "Port as in C69; floating point as in C59."
  },
  {
   "property": "C82",
   "status": "proved",
   "theorems": [
    "urm_link",
    "urm_link_no_loss",
    "urm_link_fresh",
    "urm_link_stale_refuted",
    "urm_link_failed_refuted"
   ],
   "note": "Readings with a byte of 255 are never delivered, see C40. Port as in C69; the sensor answers frame by frame."
  },
  {
   "property": "C83",
   "status": "proved",
   "theorems": [
    "motor_pins_command",
    "motor_pins_steady",
    "motor_pins_off",
    "motor_pins_no_glitch",
    "motor_pins_untimed",
    "motor_pins_glitch_refuted"
   ],
   "note": "Pins as in C71. Between Stop and Break the motor turns for a moment."
  },
  {
   "property": "C84",
   "status": "proved",
   "theorems": [
    "delay_us",
    "delay_us_refuted",
    "delay_ms",
    "delay_ms_early_refuted",
    "delay_avr",
    "delay_avr_exact",
    "delay_avr_refuted",
    "delay_profile"
   ],
   "note": "delay, micros, delayMicroseconds, _delay_ms and _delay_us as published with the Arduino core and avr-libc; the cycles of the call besides its loop are a range."
  },
  {
   "property": "C85",
   "status": "proved",
   "theorems": [
    "display_delays",
    "display_delays_kept",
    "display_delays_start",
    "display_delays_start_i2c",
    "display_delays_start_3wire",
    "display_delays_commented",
    "display_delays_refuted"
   ],
   "note": "Composition of C66 with C84. A delay that is undefined may take no time; other steps may take longer than their least time."
  },
  {
   "property": "C86",
   "status": "proved",
   "theorems": [
    "demo_blink",
    "demo_blink_close",
    "demo_page",
    "demo_page_again"
   ],
   "note": "Composition of C71 with C84, and of C65 with C72."
  },
  {
   "property": "C87",
   "status": "proved",
   "theorems": [
    "opt_tx_fifo",
    "opt_tx_awake",
    "opt_tx_drains",
    "opt_tx_refused",
    "opt_rx_fifo",
    "opt_rx_answers",
    "opt_rx_drains",
    "opt_tx_page_refuted",
    "opt_rx_page_refuted"
   ],
   "note": "Each cursor is loaded and stored at most once in a call; the handler is one step. Source order with every access as written is C04 and C80."
  },
  {
   "property": "C88",
   "status": "proved",
   "theorems": [
    "share_lists",
    "share_count",
    "share_apart",
    "share_refuted",
    "share_string",
    "share_string_refuted"
   ],
   "note": "Arrays of at most 32767 items; Clear of an array for items of one byte."
  },
  {
   "property": "C89",
   "status": "proved",
   "theorems": [
    "sbits_field_roundtrip",
    "sbits_field_value",
    "sbits_field_rejected",
    "sbits_field_refuted",
    "sbits_history",
    "sbits_sign_refuted",
    "sbits_reverse",
    "sbits_shift",
    "sbits_shift_refuted"
   ],
   "note": "Shifts of negative values as gcc defines them. Unsigned types are C14 to C16."
  },
  {
   "property": "C90",
   "status": "proved",
   "theorems": [
    "macro_task",
    "macro_shared_refuted",
    "macro_return_refuted",
    "macro_wait_refuted",
    "macro_yield_refuted"
   ],
   "note": "Local variables are C103; nested switch statements are not modelled."
  },
  {
   "property": "C91",
   "status": "proved",
   "theorems": [
    "frange_membership",
    "frange_clip",
    "frange_clip_refuted",
    "fvalue_container_set",
    "fvalue_container_nan_refuted",
    "fabs_value",
    "fabs_zero_refuted"
   ],
   "note": "Comparisons as IEEE 754 defines them (no -ffast-math)."
  },
  {
   "property": "C92",
   "status": "proved",
   "theorems": [
    "chain_display",
    "chain_motor",
    "chain_motor_drive",
    "chain_free",
    "chain_null_refuted",
    "chain_early_refuted"
   ],
   "note": "The base class is one whose Write is WriteReverse; the library's own Write never ends (C41)."
  },
  {
   "property": "C93",
   "status": "proved",
   "theorems": [
    "ident_distinct",
    "ident_timers",
    "ident_timers_avr",
    "ident_collision_refuted",
    "ident_zero_refuted"
   ],
   "note": "An object and its first member may share an address; in_memory and apart say that no two objects with an id do."
  },
  {
   "property": "C94",
   "status": "proved",
   "theorems": [
    "debug_log",
    "debug_can_log",
    "debug_can_log_refuted"
   ],
   "note": "AtlDebugLevel is a function of its arguments."
  },
  {
   "property": "C95",
   "status": "proved",
   "theorems": [
    "hw_rx_account",
    "hw_rx_prompt",
    "hw_rx_latency",
    "hw_rx_latency_tight",
    "hw_rx_asleep",
    "hw_try_read_next",
    "hw_stream_account",
    "hw_stream_lossless",
    "hw_overrun_costs_more"
   ],
   "note": "The hardware follows the data sheet; no frame or parity errors, 8 data bits."
  },
  {
   "property": "C96",
   "status": "proved",
   "theorems": [
    "hw_tx_order",
    "hw_tx_try",
    "hw_tx_flush",
    "hw_tx_flush_refuted",
    "hw_tx_complete",
    "hw_tx_complete_sticks",
    "hw_tx_complete_refuted",
    "hw_tx_wait_refuted",
    "hw_tx_stream",
    "hw_tx_stream_drains"
   ],
   "note": "The hardware follows the data sheet; 8 data bits."
  },
  {
   "property": "C97",
   "status": "proved",
   "theorems": [
    "tx_flush_clean",
    "tx_flush_stale",
    "tx_flush_refuted",
    "rx_clear_keeps"
   ],
   "note": "Calls of Write and Read are finished before Flush, Close or Clear begins."
  },
  {
   "property": "C98",
   "status": "proved",
   "theorems": [
    "hw_link"
   ],
   "note": "The line between the boards delivers what was sent; a frame or parity error is not modelled."
  },
  {
   "property": "C99",
   "status": "proved",
   "theorems": [
    "layout_message",
    "layout_reader",
    "layout_reader_decodes",
    "layout_link",
    "layout_copy",
    "layout_overlap_refuted"
   ],
   "note": ""
  },
  {
   "property": "C100",
   "status": "proved",
   "theorems": [
    "wire_format",
    "wire_majority",
    "wire_break",
    "wire_pulse",
    "wire_characters",
    "wire_boards",
    "wire_one_clock",
    "wire_parity_refuted",
    "wire_rate_refuted"
   ],
   "note": "Line and receiver follow the data sheet; ideal clocks, no noise, no overrun (C95). wire_characters has the two rates as a premise (tolerable)."
  },
  {
   "property": "C101",
   "status": "proved",
   "theorems": [
    "wire_stream",
    "wire_stream_rates"
   ],
   "note": "Composition of C95, C96, C98 and C100. A frame or parity error would leave the model (None) and is proved not to happen."
  },
  {
   "property": "C102",
   "status": "proved",
   "theorems": [
    "noise_stream",
    "noise_lossless",
    "noise_read",
    "noise_recovers",
    "noise_stream_recovers",
    "noise_midway_refuted",
    "noise_parity_refuted"
   ],
   "note": "Receiver and buffer follow the data sheet; levels are sampled without metastability. 9 data bits are not covered."
  },
  {
   "property": "C103",
   "status": "proved",
   "theorems": [
    "local_careful",
    "local_stack",
    "local_loop_refuted"
   ],
   "note": "Variables are integers; no pointers to local variables; an expression sets no variable."
  },
  {
   "property": "C104",
   "status": "proved",
   "theorems": [
    "midi_wire_sent",
    "midi_wire"
   ],
   "note": "Composition of C67 and C101 (wire_stream_rates). SysEx contents, which MidiWriter cannot send, are not covered."
  },
  {
   "property": "C105",
   "status": "proved",
   "theorems": [
    "prompt_rx",
    "prompt_tx",
    "prompt_brief",
    "prompt_link",
    "prompt_wire",
    "prompt_midi",
    "prompt_noise",
    "prompt_recovers",
    "prompt_rx_needed",
    "prompt_tx_needed"
   ],
   "note": "That a pending interrupt is served before the next instruction but one is taken from the ATmega data sheet. A step of Read or Write is at least one instruction. That no character waits as long as two take (C95, C101, C102) remains a premise of the theorems about the line."
  },
  {
   "property": "C106",
   "status": "proved",
   "theorems": [
    "text_sent",
    "text_fits",
    "text_cut",
    "text_wire",
    "text_cut_refuted",
    "text_length_refuted"
   ],
   "note": "Composition of C81 and C105 (prompt_wire). Reading a line back is a specification, there is no text reader in the library."
  },
  {
   "property": "C107",
   "status": "proved",
   "theorems": [
    "urm_usart",
    "urm_poll",
    "urm_pending",
    "urm_sensor",
    "urm_in_turn",
    "urm_wire",
    "urm_turn_wire",
    "urm_deaf",
    "urm_size_refuted",
    "urm_cut_refuted"
   ],
   "note": "The sensor is a specification: it answers each distance command it has heard. Its settings on the line are those of a USART."
  },
  {
   "property": "C108",
   "status": "proved",
   "theorems": [
    "reg_values",
    "reg_moment",
    "reg_done",
    "reg_handlers",
    "reg_apart",
    "reg_lost",
    "reg_pins",
    "reg_pin_main",
    "reg_close"
   ],
   "note": "Which registers are changed by one instruction is a parameter. Handlers are not interrupted. Bits both sides change: only that the value is one of theirs."
  },
  {
   "property": "C109",
   "status": "proved",
   "theorems": [
    "duplex_streams",
    "duplex_drains",
    "duplex_calls",
    "duplex_accepts",
    "duplex_stores",
    "duplex_switch",
    "duplex_handler_write_refuted"
   ],
   "note": "Open, Close and Flush are outside the histories; RXB8, which the hardware writes, is not followed. Schedules as in C04."
  },
  {
   "property": "C110",
   "status": "proved",
   "theorems": [
    "lcd_avr_new",
    "lcd_avr_lines",
    "lcd_avr_main",
    "lcd_avr_view",
    "lcd_avr_isr",
    "lcd_avr_two",
    "lcd_avr_init_refuted",
    "lcd_avr_shared_refuted"
   ],
   "note": "A handler is not interrupted itself. The delays of the driver are left out (C66 has them)."
  },
  {
   "property": "C111",
   "status": "proved",
   "theorems": [
    "pins_avr_new",
    "pins_avr_main",
    "pins_avr_isr",
    "shift_avr_main",
    "shift_avr_value",
    "shift_avr_display",
    "shift_avr_isr",
    "shift_avr_isr_display",
    "shift_avr_two",
    "shift_avr_shared_refuted"
   ],
   "note": "A handler is not interrupted itself. The chain writes with WriteReverse, as in C92; PWM of motors on it goes elsewhere."
  }
 ]
}
