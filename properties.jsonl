{"id": "C01", "title": "RingBuffer is a bounded FIFO", "statement": "For a RingBuffer<T,Size> with Size >= 1, any history of Write, Clear and Read calls where Read is only called while getLength() > 0 behaves exactly as a first-in first-out queue of capacity Size-1: Write returns true and appends iff fewer than Size-1 items are stored, otherwise returns false and changes nothing; Read returns the oldest stored item; Clear empties it; getLength() is the number of stored items.", "quantifier": "every item type, every Size from 1 to 65535, every finite call history", "why_tests_cant": "the wrap-around of the two cursors depends on the whole history; tests only visit a few lengths and offsets", "anchors": ["Source/Code/ArduinoTemplateLibrary/RingBuffer.h: RingBuffer::Write, Read, Clear, getLength"]}
{"id": "C02", "title": "RingBuffer underrun corrupts the queue", "statement": "Calling RingBuffer::Read on an empty buffer (Size >= 2) does not fail: the reported length becomes Size-1, every Write is refused, and subsequent Reads hand out Size-1 items although none is stored: in a history without Clear this Read and the Size-1 following ones answer again the last Size items ever written, oldest first (what the memory held before, if fewer were written). With Size = 1 it is harmless. Guarding every Read by getLength() > 0 is necessary and sufficient to avoid it.", "quantifier": "every Size >= 2, every reachable empty state", "why_tests_cant": "a test can show one stale read, not that every empty state is affected nor that the guard is enough", "anchors": ["Source/Code/ArduinoTemplateLibrary/RingBuffer.h: RingBuffer::Read, getLength"]}
{"id": "C03", "title": "BufferedInputStream never underruns", "statement": "BufferedInputStream::Read over a RingBuffer of unsigned bytes returns -1 exactly when the buffer is empty, leaving it untouched, and otherwise returns the oldest byte as a value in 0..255. For every history of Write/Read/Clear the values returned are the accepted bytes in order.", "quantifier": "every history of Write, Read and Clear calls, every capacity", "why_tests_cant": "the interleavings of fill and drain are unbounded", "anchors": ["Source/Code/ArduinoTemplateLibrary/BufferedInputStream.h: BufferedInputStream::Read", "Source/Code/ArduinoTemplateLibrary/RingBuffer.h: RingBuffer"]}
{"id": "C04", "title": "Ring buffer shared between main loop and interrupt handler", "statement": "When one context only calls Write and another, able to preempt it at any memory access, only calls a length-guarded Read (or the reverse), then for every interleaving in which the preempting context runs at most once between the increment of a cursor and its wrap-around, nothing is lost, duplicated or reordered: the values read are a prefix of the values for which Write returned true, and at most Size-1 items are in flight. The bytes offered are those of the calls, in order; a Write of the transmit stream is refused exactly if Size-1 accepted bytes are not yet sent at its test, and a character is stored exactly if it has no error, the interrupt is on and fewer than Size-1 wait. Without that restriction the claim is false in both directions. getLength interrupted between its comparison and its subtraction is exact unless the comparison changes meanwhile, and then off by Size.", "quantifier": "every interleaving at the granularity of one pointer or element access, every Size, every number of calls", "why_tests_cant": "a schedule property; a unit test runs one schedule", "anchors": ["Source/Code/ArduinoTemplateLibrary/RingBuffer.h: RingBuffer::Write, Read, getLength", "Source/Code/ArduinoTemplateLibrary/AVR/UsartOutputStream.h: UsartOutputStream", "Source/Code/ArduinoTemplateLibrary/AVR/UsartInputStream.h: UsartInputStream"]}
{"id": "C05", "title": "Array reads are total", "statement": "For arrays of at most 32767 items GetAt(i) returns the stored element for 0 <= i < capacity and the type's default value for every other int16 index; IsValidIndex is true exactly for the former; IndexOf returns the smallest index holding the value, or -1 when no element equals it. Arrays of 32768..65535 items treat every index as invalid.", "quantifier": "every capacity 0..65535, every content, every int16 index, every searched value", "why_tests_cant": "the product of capacities, contents and indices is unbounded; the cast of the capacity to int16 only bites above 32767", "anchors": ["Source/Code/ArduinoTemplateLibrary/Array.h: Array::GetAt, IsValidIndex, IndexOf", "Source/Code/ArduinoTemplateLibrary/ArrayRef.h: ArrayRef"]}
{"id": "C06", "title": "FixedArray read-after-write and no stray writes", "statement": "SetAt(i,v) with a valid index makes GetAt(i) return v and leaves every other element unchanged; with an invalid index it changes nothing. Writing through operator[] with an invalid index never changes any element of any array. Hence after any history of writes each element holds the last value written to its index.", "quantifier": "every capacity, history, index and value", "why_tests_cant": "last-writer-wins is a property of whole histories", "anchors": ["Source/Code/ArduinoTemplateLibrary/FixedArray.h: FixedArray::SetAt, operator[]", "Source/Code/ArduinoTemplateLibrary/FixedArrayRef.h: FixedArrayRef"]}
{"id": "C07", "title": "FixedArray::Clear only clears capacity-many bytes", "statement": "Clear() zeroes exactly the first MaxItems bytes of the storage: all elements when elements are one byte wide; for elements of s > 1 bytes element k is zeroed completely only when (k+1)*s <= MaxItems, and elements with k*s >= MaxItems keep their value.", "quantifier": "every element size, capacity and content", "why_tests_cant": "tests use one element size", "anchors": ["Source/Code/ArduinoTemplateLibrary/FixedArray.h: FixedArray::Clear", "Source/Code/ArduinoTemplateLibrary/FixedArrayRef.h: FixedArrayRef::Clear"]}
{"id": "C08", "title": "FixedString stays NUL terminated", "statement": "After construction and any history of CopyFrom, Clear and SetAt calls whose index is below getCapacity, the string is NUL terminated within its storage and CopyFrom(s) leaves the first min(strlen s, capacity) characters of s followed by NULs; nothing outside the storage is written and every byte of the storage is the one the last call touching it left. getCapacity answers MaxChars modulo 256.", "quantifier": "every capacity, every source string, every history", "why_tests_cant": "strncpy truncation/padding must be right for every length and after every prior content", "anchors": ["Source/Code/ArduinoTemplateLibrary/FixedString.h: FixedString::CopyFrom, Clear, getCapacity", "Source/Code/ArduinoTemplateLibrary/FixedArray.h: FixedArray"]}
{"id": "C09", "title": "Collection is a bounded growable list", "statement": "For every history of Add, SetAt, Clear on a Collection over a fixed array of capacity N (N <= 32767) the collection behaves as a list of at most N items: Add appends when there is room and otherwise changes nothing; GetAt(i)/SetAt(i,v) act on existing items only, GetAt yielding the default and SetAt doing nothing for any other index; getCount is the list length.", "quantifier": "every history, capacity and element type", "why_tests_cant": "history property", "anchors": ["Source/Code/ArduinoTemplateLibrary/Collection.h: Collection", "Source/Code/ArduinoTemplateLibrary/CollectionRef.h: CollectionRef"]}
{"id": "C10", "title": "Collection::IndexOf", "statement": "Collection::IndexOf returns the index of the first matching item, or -1 when absent, whenever the first match lies below index 128; for a first match at index 128..255 the result is negative (on signed-char targets), so a present item can be reported as absent.", "quantifier": "every content and searched item", "why_tests_cant": "the char-typed result only fails from item 129 on", "anchors": ["Source/Code/ArduinoTemplateLibrary/Collection.h: Collection::IndexOf"]}
{"id": "C11", "title": "Forward and backward iteration visit each item once, in order", "statement": "For any container with count n <= 32767, Iterator from Reset yields exactly items 0..n-1 in order before MoveNext returns false, and from ResetToEnd MoveBack yields exactly n-1..0 before returning false; getCurrent outside a valid position returns the default value; a failed move does not change the position. MoveTo(item) moves to the first matching item and answers true, or answers false and stays where it was.", "quantifier": "every container size and content, every mix of moves", "why_tests_cant": "requires induction on the number of items and on the move history", "anchors": ["Source/Code/ArduinoTemplateLibrary/Iterator.h: Iterator"]}
{"id": "C12", "title": "WrapAroundIterator cycles", "statement": "For a non-empty container n forward moves of WrapAroundIterator from any valid position return to that position having visited every item exactly once, and MoveBack undoes MoveNext. On an empty container MoveNext/MoveBack still answer true although there is no current item.", "quantifier": "every container size 1..32767 and every start position", "why_tests_cant": "cycle length depends on size", "anchors": ["Source/Code/ArduinoTemplateLibrary/Iterator.h: WrapAroundIterator"]}
{"id": "C13", "title": "StaticArray::IndexOf", "statement": "StaticArray::GetAt answers for every index: the item inside the array, the default elsewhere. StaticArray::IndexOf terminates and returns the first match or -1 when MaxItems <= 127; with MaxItems in 128..255 a match beyond 127 is reported as a negative index; with MaxItems >= 256 a search for an absent value never terminates.", "quantifier": "every content and size", "why_tests_cant": "non-termination cannot be tested; boundary depends on size", "anchors": ["Source/Code/ArduinoTemplateLibrary/StaticArray.h: StaticArray::IndexOf"]}
{"id": "C14", "title": "BitArray bit-field read-after-write", "statement": "For BitArray<T> over 8/16/32-bit storage, Set(index,value,count) on an in-range field makes Get(index,count) return value mod 2^count and preserves every bit outside the field; out-of-range requests change nothing and read as 0.", "quantifier": "every stored word, every index, count and value", "why_tests_cant": "2^32 words x fields x values", "anchors": ["Source/Code/ArduinoTemplateLibrary/BitArray.h: BitArray::Set, Get, CreateMask, isValidIndex"]}
{"id": "C15", "title": "BitArray single-bit operations", "statement": "For T no wider than int, Set(i)/Reset(i)/Set(i,b) affect bit i only, IsTrue/IsFalse read bit i only and are complementary for valid i; for invalid i nothing changes and both IsTrue and IsFalse answer false. After any history, bit i equals the last value written to it. Fails for uint32_t where int has 16 bits: setting bit 15 sets bits 15 to 31, and a bit from 16 on is an undefined shift.", "quantifier": "every word, index and history", "why_tests_cant": "history + word space", "anchors": ["Source/Code/ArduinoTemplateLibrary/BitArray.h: BitArray::Set, Reset, IsTrue, IsFalse"]}
{"id": "C16", "title": "BitArray::Reverse", "statement": "Reverse swaps bit i with bit (MaxBits-1-i) for every i, for the generic loop and for the 8-bit and 16-bit specialisations; it is therefore an involution and the specialisations agree with the generic version.", "quantifier": "every word of every width", "why_tests_cant": "2^32 words", "anchors": ["Source/Code/ArduinoTemplateLibrary/BitArray.h: BitArray::Reverse"]}
{"id": "C17", "title": "Bit<> compile-time bit access", "statement": "Bit<BitIndex>::Set/Reset/Toggle change only the addressed bit, IsTrue after Set holds, IsTrue and IsFalse are complementary, Toggle twice is the identity, for unsigned operands. For signed operands IsTrue misreports the sign bit.", "quantifier": "every word and bit index below the operand width", "why_tests_cant": "word space", "anchors": ["Source/Code/ArduinoTemplateLibrary/Bit.h: Bit"]}
{"id": "C18", "title": "BitFlag runtime bit access", "statement": "BitFlag Set/Reset/IsTrue on index < MaxBits affect/read exactly that bit; an index greater than MaxBits is rejected; an index equal to MaxBits passes the guard: for operands narrower than int it changes nothing but IsFalse answers true, for wider operands the shift is undefined.", "quantifier": "every word and uint8 index", "why_tests_cant": "word space; the off-by-one guard is invisible for in-range tests", "anchors": ["Source/Code/ArduinoTemplateLibrary/BitFlag.h: BitFlag"]}
{"id": "C19", "title": "Range clipping", "statement": "For a normalised Range, ClipValue(v) always lies in [Begin,End], equals v exactly when v is in range, is idempotent and monotone; IsInRange does not depend on the order of the end points; Normalize makes the range normalised, preserves the set of values in range and is idempotent.", "quantifier": "every ordered value type and values", "why_tests_cant": "value space", "anchors": ["Source/Code/ArduinoTemplateLibrary/Range.h: Range"]}
{"id": "C20", "title": "ValueContainer membership", "statement": "ValueContainer::IsInRange(v) is membership in the set denoted by its mode (None: empty, Single: one value, Range: closed interval in either order, Any: everything) and Normalize never changes that set; the getters return the mode last set and the ends last set, in order once normalised.", "quantifier": "every mode, end points, values", "why_tests_cant": "value space", "anchors": ["Source/Code/ArduinoTemplateLibrary/ValueContainer.h: ValueContainer"]}
{"id": "C21", "title": "Time deltas are exact across timer wrap", "statement": "If fewer than 2^32 ticks elapse between consecutive Update calls, each Update returns exactly the elapsed ticks, also across wrap-around of the 32-bit counter, and the sum of all deltas equals the total elapsed time for every number of calls. Converting between milliseconds and microseconds is exact as long as the product fits in 32 bits. TimeEx keeps the reading of the last Reset (or construction) as its start time through every number of Updates, and getDeltaTime is the time between the last two readings modulo 2^16 (0 right after Reset).", "quantifier": "every start tick, every sequence of intervals", "why_tests_cant": "49-day wrap cannot be run in a test", "anchors": ["Source/Code/ArduinoTemplateLibrary/Time.h: Time", "Source/Code/ArduinoTemplateLibrary/Arduino/Time_Arduino.h: Time::Update, getMilliseconds, getMicroseconds"]}
{"id": "C22", "title": "A delay never fires early and fires at the first opportunity", "statement": "After Wait(id,t) starts a delay, the following Wait calls on that id return false while the deltas those calls saw (the delta of the latest Update at each call) sum to less than t and return true at the first call at which that sum reaches t, whatever other ids do meanwhile. With at most one such call per Update a delay therefore never completes before t has elapsed; calling twice after one Update counts its delta twice (fires early), an Update without a call is not counted (fires late).", "quantifier": "every delay time, every sequence of Update deltas, every interleaving with other ids", "why_tests_cant": "schedules of polls and other delays are unbounded", "anchors": ["Source/Code/ArduinoTemplateLibrary/Delays.h: Delays::Wait, Update"]}
{"id": "C23", "title": "Delays do not interfere", "statement": "Wait, Abort and Clear on one non-zero id never change whether another id is waiting nor its remaining time; no id occupies two slots; the number of waiting ids equals the occupied slots. getLastDeltaTime answers the delta of the last Update modulo 2^16, so the true one exactly if it is below 65536 (65.5 ms for a time in microseconds).", "quantifier": "every reachable table state, every pair of ids", "why_tests_cant": "needs an invariant over all histories", "anchors": ["Source/Code/ArduinoTemplateLibrary/Delays.h: Delays"]}
{"id": "C24", "title": "Delays capacity", "statement": "A call is out of bounds exactly when it starts a new delay while MaxItems other ids are waiting; then it writes in front of the table. Id 0 marks free slots: in a fresh table with two or more slots Wait(0,t) answers true at once for every t, and with exactly one free slot it answers false forever.", "quantifier": "every history and capacity", "why_tests_cant": "memory-safety over all histories", "anchors": ["Source/Code/ArduinoTemplateLibrary/Delays.h: Delays::Wait"]}
{"id": "C25", "title": "Cooperative task resume", "statement": "A task method built from Task_Begin/Yield/YieldUntil/WaitUntil/Return/End, with any nesting of if and while around them, resumes exactly where it left off: over any sequence of calls, and whatever other code does to memory between the calls, the actions, tests, answers and memory are those of the body read as a sequential program in which a pause blocks until the next call. YieldUntil suspends at least once, WaitUntil does not suspend when its condition already holds, a call answers false exactly when the body ended, and the next call starts from the beginning.", "quantifier": "every structured task body, every call sequence and every interference between calls", "why_tests_cant": "arbitrary programs and condition schedules", "anchors": ["Source/Code/ArduinoTemplateLibrary/Task.h: Task_Begin, Task_Yield, Task_YieldUntil, Task_WaitUntil, Task_End"]}
{"id": "C26", "title": "TimeoutTask fires periodically", "statement": "TimeoutTask::Execute never calls OnTimeout on its first call; the second call starts the delay, and OnTimeout is called at the first later Execute at which the deltas seen by the calls after the starting one sum to the Timeout, never earlier and at most once per Execute; the Execute after a firing starts the next period. Holds forever and whatever other ids of the same Delays do.", "quantifier": "every timeout and every sequence of deltas", "why_tests_cant": "infinite run property", "anchors": ["Source/Code/ArduinoTemplateLibrary/TimeoutTask.h: TimeoutTask::Execute", "Source/Code/ArduinoTemplateLibrary/Delays.h: Delays"]}
{"id": "C27", "title": "PushButton debounce", "statement": "After the first reading a settled state (Open, Closed, Hold) is left for the other level only through Pending; the scan after the one that saw the change starts the debounce time, and Pending is left at exactly the first later scan where the deltas seen reach the debounce time, for the level read at that scan. Glitches that return to the old level in between leave the old level. The very first scan is not debounced.", "quantifier": "every sequence of contact samples and delay outcomes", "why_tests_cant": "input sequences are unbounded", "anchors": ["Source/Code/ArduinoTemplateLibrary/PushButton.h: PushButton"]}
{"id": "C28", "title": "PushButton hold", "statement": "Hold is reported only directly after Closed, at exactly the first scan where the contact is still closed and the deltas since the scan that reported Closed reach the hold time; in Hold a closed contact stays Hold and an open one starts debouncing.", "quantifier": "every sequence of samples and delay outcomes", "why_tests_cant": "input sequences are unbounded", "anchors": ["Source/Code/ArduinoTemplateLibrary/PushButton.h: PushButton"]}
{"id": "C29", "title": "DigitalInput edge detection", "statement": "DigitalInput::Read returns true exactly when the sampled level differs from the previous sample; after any number of samples the number of reported changes has the parity of first xor last level and getValue is the last sample.", "quantifier": "every sample sequence", "why_tests_cant": "unbounded sequences", "anchors": ["Source/Code/ArduinoTemplateLibrary/DigitalInput.h: DigitalInput"]}
{"id": "C30", "title": "MIDI status classification", "statement": "GetMessageType, GetMessageLength, IsChannelMessage, IsRealtime, IsSystemCommon, IsSystem agree with the MIDI 1.0 table for all 256 byte values, with the exact list of exceptions stated.", "quantifier": "all 256 status bytes", "why_tests_cant": "finite but tests pick a few; exact exception list needs exhaustive proof", "anchors": ["Source/Code/ArduinoTemplateLibrary/Midi.h: Midi"]}
{"id": "C31", "title": "MidiMessage byte round trip", "statement": "For each status and data bytes below 0x80, SetStatusByte/SetDataByte1/SetDataByte2 followed by GetStatusByte/GetDataByte1/GetDataByte2 return the same bytes (for the message types where both data bytes are used), including the 14-bit pitch-bend and song-position values. The fields say the same: MessageType and Channel are the halves of the status byte, Note and Velocity (and the names that share their place) the data bytes, the pitch bend and the song position the 14-bit value; and the bytes of a message whose fields were assigned are those of the fields. A new message is empty.", "quantifier": "every status byte and every pair of data bytes", "why_tests_cant": "union aliasing across message types", "anchors": ["Source/Code/ArduinoTemplateLibrary/MidiMessage.h: MidiMessage"]}
{"id": "C32", "title": "MidiReader decodes every well-formed stream", "statement": "For any sequence of channel and system-common messages (no SysEx), encoded with or without running status and with realtime bytes inserted anywhere, MidiReader reports exactly those messages, in order, with the right data, and each realtime byte when it occurs; each call of Read takes one byte and answers true.", "quantifier": "every message sequence, every running-status choice, every placement of realtime bytes", "why_tests_cant": "unbounded streams", "anchors": ["Source/Code/ArduinoTemplateLibrary/MidiReader.h: MidiReader"]}
{"id": "C33", "title": "MidiReader stays well defined on arbitrary input", "statement": "On any byte stream whatever every message MidiReader reports carries a supported status and data bytes below 0x80 and is built from bytes actually received after that status; after a SysEx start byte the reader ignores every further byte forever. A call of Read that answers false reports nothing. Without a byte waiting Read answers false. Fails: Read answers false for bytes it takes and ignores, although it is documented to return true when a byte was read.", "quantifier": "every byte stream", "why_tests_cant": "adversarial inputs", "anchors": ["Source/Code/ArduinoTemplateLibrary/MidiReader.h: MidiReader"]}
{"id": "C34", "title": "MidiWriter/MidiReader round trip", "statement": "Reading back the bytes written by MidiWriter for any sequence of channel and system-common messages and realtime bytes yields the same sequence; the bytes are a legal MIDI stream with running status. Fails for channel pressure with a value above 127, for a system exclusive message, after which nothing is read any more, and for a tune request written by its type, which leaves a running status that no longer holds.", "quantifier": "every message sequence", "why_tests_cant": "running-status compression depends on history", "anchors": ["Source/Code/ArduinoTemplateLibrary/MidiWriter.h: MidiWriter", "Source/Code/ArduinoTemplateLibrary/MidiReader.h: MidiReader"]}
{"id": "C35", "title": "TextWriter integer formatting", "statement": "Writing an unsigned integer in base b (2..36) emits, as long as the digit buffer holds it (C36), the unique digit string without leading zeros (\"0\" for zero) that parses back to the same number; negative values in decimal are written as '-' followed by the magnitude, in other bases as their bit pattern. Base values below 2 act as base 10. The most negative value of int32_t (and of int16_t where int has 16 bits) is negated with overflow.", "quantifier": "every value of every width, every base", "why_tests_cant": "value space", "anchors": ["Source/Code/ArduinoTemplateLibrary/TextWriter.h: TextWriter::WriteInternal, Write"]}
{"id": "C36", "title": "TextWriter digit buffer bound", "statement": "The fixed digit buffer is overrun exactly when the value has more digits than it holds: never for bases 4 to 36; for 16-bit values in base 2 from 1024 and in base 3 from 59049 on; for 32-bit values in base 2 from 2^20 and in base 3 from 3^20 on.", "quantifier": "every value and base", "why_tests_cant": "memory safety over all values", "anchors": ["Source/Code/ArduinoTemplateLibrary/TextWriter.h: TextWriter::WriteInternal"]}
{"id": "C37", "title": "TextWriter character output", "statement": "Write(str) emits the characters of the string in order; Write(char) emits the decimal digits of the character code rather than the character; WriteLine adds a line feed and a carriage return, in this order.", "quantifier": "every string and character", "why_tests_cant": "exhaustive over characters", "anchors": ["Source/Code/ArduinoTemplateLibrary/TextWriter.h: TextWriter::Write"]}
{"id": "C38", "title": "PID integral wind-up is bounded", "statement": "For T = long and every history of Process calls each output is the sum of the P, I and D terms limited to the range, defined exactly if the error, the terms, their parts and their sums fit in 32 bits and no time of zero divides (which histories of moderate size never violate); the integral stays inside the range, saturates linearly without winding up, and is reset when the error is inside the dead band. For T = int with 16 bits the same holds as long as nothing leaves 16 bits and the derivative term does not fall; the integral wraps otherwise, and every falling derivative over two or more time units counts as a rise.", "quantifier": "every history of set points, feedback values and time steps", "why_tests_cant": "unbounded histories", "anchors": ["Source/Code/ArduinoTemplateLibrary/PID.h: PID"]}
{"id": "C39", "title": "URM37 framing and checksum", "statement": "Every command frame is accepted by the response checksum rule; changing any single byte of a frame is detected; nothing is consumed before four bytes are available, and however the bytes arrive the reports are the four-byte frames of the stream in order. WriteEEPROM returns on the first well-formed frame and tells whether it echoes; if the sensor echoes, both mode methods answer true and its EEPROM holds mode and threshold; the first answer that is no echo stops them, no further command is sent and they answer false. Fails: when the second command is not echoed the sensor is left in the new mode with a threshold half old and half new. After one lost byte no later distance is ever delivered.", "quantifier": "every command/data bytes, every corruption", "why_tests_cant": "byte space", "anchors": ["Source/Code/ArduinoTemplateLibrary/URM37V32_Driver.h: URM37V32_Driver"]}
{"id": "C40", "title": "URM37 distance and temperature decoding", "statement": "EndDistance returns 256*high+low for every well-formed distance reply with neither byte 255, and no distance otherwise; valid readings with one byte 255 are lost. EndTemperature returns the sign-magnitude value in tenths. A servo angle is sent as the step below degrees*46/270.", "quantifier": "all reply bytes", "why_tests_cant": "byte space", "anchors": ["Source/Code/ArduinoTemplateLibrary/URM37V32_Controller.h: URM37V32_Controller"]}
{"id": "C41", "title": "Serial shift-out loads the register", "statement": "For every value and every chain of shift registers at least as long, WriteReverse leaves the bits of the value on the outputs with the highest bit first and pushes older bits down; the outputs change only at the final latch pulse. Write never returns and never latches.", "quantifier": "every value and width", "why_tests_cant": "value space and non-termination", "anchors": ["Source/Code/ArduinoTemplateLibrary/Serial3WireOutput.h: Serial3WireOutput"]}
{"id": "C42", "title": "TB6612FNG direction and speed", "statement": "After any history of Stop, Break, Clockwise and CounterClockwise calls the chip does what the last call asks and nothing else of the history matters; speed 0 drives with duty 1. During a call no direction appears that neither the old nor the new command asks for, except between Stop and Break.", "quantifier": "every history and speed", "why_tests_cant": "history property", "anchors": ["Source/Code/ArduinoTemplateLibrary/TB6612FNG_Controller.h: TB6612FNG_Controller", "Source/Code/ArduinoTemplateLibrary/TB6612FNG_Driver.h: TB6612FNG_Driver"]}
{"id": "C43", "title": "HD44780 nibble protocol", "statement": "For any sequence of driver calls the device, latching on the falling edge of enable, takes exactly the nibbles of those calls with the right register select, for the parallel, I2C and 3-wire drivers; in 4-bit mode these are exactly the bytes written. With RS low, full initialisation brings a device in any state into 4-bit mode; after a data write it does not, because RS is not lowered. Backlight and the bits of other devices are preserved.", "quantifier": "every byte sequence", "why_tests_cant": "sequence property", "anchors": ["Source/Code/ArduinoTemplateLibrary/HD44780_Driver.h: HD44780_Driver", "Source/Code/ArduinoTemplateLibrary/HD44780_DriverI2C.h: HD44780_DriverI2C", "Source/Code/ArduinoTemplateLibrary/HD44780_DriverSerial3Wire.h: HD44780_DriverSerial3Wire"]}
{"id": "C44", "title": "HD44780 controller settings", "statement": "After any history of controller calls the device's display, cursor, blink and shift settings and the getters are those last asked for; so is the text direction once an entry-mode setter was called and until the display is cleared. Before that a display-shift setter reverses the direction.", "quantifier": "every history", "why_tests_cant": "history property", "anchors": ["Source/Code/ArduinoTemplateLibrary/HD44780_Controller.h: HD44780_Controller"]}
{"id": "C45", "title": "HD44780 view cursor tracking", "statement": "For 1, 2 or 4 rows, after initialisation and any calls that stay on the screen the tracked position is that of the text written and the device memory holds the text at the addresses of its cells. Past the end of a row or below the last row the tracked position and the device disagree.", "quantifier": "every text and start position", "why_tests_cant": "history property", "anchors": ["Source/Code/ArduinoTemplateLibrary/HD44780_View.h: HD44780_View"]}
{"id": "C46", "title": "HD44780 viewport scrolling", "statement": "From the initial position ScrollLeft and ScrollRight never scroll: the offset stays 0 for every history.", "quantifier": "every history of scroll calls", "why_tests_cant": "history property", "anchors": ["Source/Code/ArduinoTemplateLibrary/HD44780_ViewPort.h: HD44780_ViewPort"]}
{"id": "C47", "title": "UI control state machine", "statement": "setState answers true exactly for the changes the class allows and only then the state changes: labels never focused or selected, input controls and panels not focused while disabled or hidden, panels never selected; over any history labels and panels stay legal; without setState(Selected) a control is selected only by TrySelect while focused. IsOfType follows the class hierarchy. Fails: setState(Selected) selects disabled or hidden input controls; TrySelect on a focused panel answers true without a change; every control says it is a Panel.", "quantifier": "every class, state and history of calls", "why_tests_cant": "history property", "anchors": ["Source/Code/ArduinoTemplateLibrary/Control.h: Control", "Source/Code/ArduinoTemplateLibrary/LabelControl.h: LabelControl", "Source/Code/ArduinoTemplateLibrary/InputControl.h: InputControl"]}
{"id": "C48", "title": "Panel focus", "statement": "In every panel of a tree only the current control can be focused or selected, it is an input control, and no label is focused or selected; navigation changes no structure and edits at most one field; moving in a panel goes through its input controls in order and stops at both ends; on a page Enter/Exit and the editing commands reach exactly the current field. Fails: SetFirstInputControl on several lines; two lines of a page each keep a focused field; moving lands on disabled or hidden controls and leaving makes them normal; selected fields in a vertical panel never see Up/Down.", "quantifier": "every tree of panels, every history of navigation commands, state changes and moves along the current path", "why_tests_cant": "history property", "anchors": ["Source/Code/ArduinoTemplateLibrary/Panel.h: Panel", "Source/Code/ArduinoTemplateLibrary/PanelControlContainer.h: PanelControlContainer", "Source/Code/ArduinoTemplateLibrary/HorizontalPanel.h: HorizontalPanel", "Source/Code/ArduinoTemplateLibrary/VerticalPanel.h: VerticalPanel"]}
{"id": "C49", "title": "Control container neighbours", "statement": "getNext/getPrevious return the adjacent control of the type asked for or NULL at the ends; asking repeatedly from NULL visits every such control once in order, or backwards; getPrevious undoes getNext. Fails for controls added twice and for more than 127 controls.", "quantifier": "every container content of at most 127 controls", "why_tests_cant": "size induction", "anchors": ["Source/Code/ArduinoTemplateLibrary/ControlContainer.h: ControlContainer"]}
{"id": "C50", "title": "TextControl editing stays in the buffer", "statement": "While editing, the edit position stays below the capacity and no byte outside the text, the terminator included, is written; over a set of distinct characters the control is an editor that steps each place through the characters, clipped or wrapping, with the answers of the commands. Fails: capacity 0, characters outside the set, sets of 256 or more characters.", "quantifier": "every text, character set of 1..127 characters, history of commands, state changes and foreign iterator moves", "why_tests_cant": "history property", "anchors": ["Source/Code/ArduinoTemplateLibrary/TextControl.h: TextControl"]}
{"id": "C51", "title": "USART baud selection", "statement": "For a baud rate in range InitAsync succeeds exactly when one of the two dividers has a register value in 0..4095 making the smallest rate not below the one asked for; it takes the divider with the smaller deviation and otherwise clears the setting; the other settings are kept. getBaudRate returns the rate made and getMode which divider was taken. Fails: very low rates wrap around and are accepted; the value is rounded down, not to the nearest rate; deviations of 32768 or more wrap around; register value 0 reads back as rate 0; baud rate 0 divides by zero; without a rate getMode says synchronous slave.", "quantifier": "every clock and baud rate with quotient below 32769", "why_tests_cant": "parameter space", "anchors": ["Source/Code/ArduinoTemplateLibrary/AVR/UsartConfig.h: UsartConfig"]}
{"id": "C52", "title": "USART frame format registers", "statement": "OpenAsync succeeds exactly for asynchronous configurations and otherwise changes nothing. Afterwards the registers, decoded as in the datasheet, give the configured divider, baud register value, stop bits, and 5 to 8 data bits without parity; nothing is enabled. Fails: even parity is set up as odd and odd as even; 9 data bits select a reserved format.", "quantifier": "every configuration and register content", "why_tests_cant": "exhaustive over configurations", "anchors": ["Source/Code/ArduinoTemplateLibrary/AVR/UsartConfig.h: UsartConfig::getUCSRA, getUCSRB, getUCSRC"]}
{"id": "C53", "title": "Port operations touch only their bit", "statement": "Direction and Write on one pin change exactly that pin's bit of the direction or output register, Read returns the pin's input bit; the pin constructors make exactly their pin an input or an output driving the initial value. Fails: EnablePullup(false) enables the pull-up; an output pin with an initial value first drives the old value.", "quantifier": "every register content, port and pin", "why_tests_cant": "register space", "anchors": ["Source/Code/ArduinoTemplateLibrary/AVR/Port.h: Port"]}
{"id": "C54", "title": "Power reduction flags", "statement": "setEnableUsart changes only its own power reduction bit. Fails: getEnableUsart looks at the bits of other devices and does not change when the USART is switched off.", "quantifier": "every register content", "why_tests_cant": "register space", "anchors": ["Source/Code/ArduinoTemplateLibrary/AVR/PowerReduction.h: PowerReduction"]}
{"id": "C55", "title": "USART transmit stream never stalls", "statement": "For every interleaving of Write calls and data-register-empty interrupts (at most one interrupt inside the wrap-around window of C04), as long as the interrupt keeps firing while enabled every accepted byte is eventually transmitted, in order, and the interrupt is enabled whenever bytes are queued and no Write is in progress.", "quantifier": "every interleaving", "why_tests_cant": "schedule property", "anchors": ["Source/Code/ArduinoTemplateLibrary/AVR/UsartOutputStream.h: UsartOutputStream"]}
{"id": "C56", "title": "BitArray shifts", "statement": "ShiftUp(k) moves every bit k positions up, dropping those that leave the word and filling with zeroes; ShiftDown(k) likewise downwards; shift counts of at least the width of the promoted type are undefined.", "quantifier": "every word, width and shift count", "why_tests_cant": "word space; the promotion to int decides where the behaviour is undefined", "anchors": ["Source/Code/ArduinoTemplateLibrary/BitArray.h: BitArray::ShiftUp, ShiftDown"]}
{"id": "C57", "title": "Math::Abs", "statement": "Math::Abs returns the absolute value for every value of a signed integer type except the most negative one; for that one it returns the same negative value when the type is narrower than int and overflows otherwise.", "quantifier": "every value of every signed width", "why_tests_cant": "the exceptional value differs per type and platform", "anchors": ["Source/Code/ArduinoTemplateLibrary/Math.h: Math::Abs"]}
{"id": "C58", "title": "AVR Button state recording", "statement": "SetButtonState answers true and records the new state and the previous one for every change, and ignores Closed while in Hold; otherwise nothing changes and the answer is false.", "quantifier": "every packed state byte and new state", "why_tests_cant": "all packed bytes and states", "anchors": ["Source/Code/ArduinoTemplateLibrary/AVR/Button.h: Button::SetButtonState"]}
{"id": "C59", "title": "TextWriter real formatting", "statement": "In binary floating point, writing a number of magnitude up to 4294967040 (up to 4294967295 with 33 or more bits of precision) with k decimals emits the sign, the integral part and exactly k decimals; the decimal number differs from the value by at most half a unit of the last decimal plus (|x|+2)*2^-p (p bits of precision), so it is the nearest decimal unless the value is that close to a midpoint, and small whole numbers are exact. For any larger number there is a decimal number that close, and it is written if it is below 2^32 and otherwise the conversion is undefined, so it is from 2^32 on. Large whole numbers and values near a midpoint can be written wrongly. In exact arithmetic the algorithm rounds to nearest.", "quantifier": "every finite number of every binary format with at least 24 bits and every number of decimals", "why_tests_cant": "value space of floats times decimals; the error of 10 to 255 rounded operations accumulates", "anchors": ["Source/Code/ArduinoTemplateLibrary/TextWriter.h: TextWriter::WriteReal"]}
{"id": "C60", "title": "HD44780 display writer", "statement": "GoTo moves to the given line and column, keeping the current one for DontCare. SetCursor shows the cursor at the given cell, blinking exactly in edit mode, without changing the text or other settings; a single DontCare is taken as a coordinate.", "quantifier": "every history of settings and every position", "why_tests_cant": "history property", "anchors": ["Source/Code/ArduinoTemplateLibrary/HD44780_DisplayWriter.h: HD44780_DisplayWriter"]}
{"id": "C61", "title": "AVR register histories", "statement": "After any history of port, power, interrupt enable and USART calls every bit of every register has the value the last call that names it gave it, or the value it had before; Close ends with receiver, transmitter and their interrupts disabled and the power off. Fails: the pin change mask of port D is never written.", "quantifier": "every history of calls and initial register content", "why_tests_cant": "history property over all register contents", "anchors": ["Source/Code/ArduinoTemplateLibrary/AVR/Port.h: Port", "Source/Code/ArduinoTemplateLibrary/AVR/PowerReduction.h: PowerReduction", "Source/Code/ArduinoTemplateLibrary/AVR/Interrupt.h: Interrupt", "Source/Code/ArduinoTemplateLibrary/AVR/Usart.h: Usart::OpenAsync, Close", "Source/Code/ArduinoTemplateLibrary/AVR/UsartReceive.h: UsartReceive", "Source/Code/ArduinoTemplateLibrary/AVR/UsartTransmit.h: UsartTransmit"]}
{"id": "C62", "title": "USART data round trip", "statement": "Characters written by a transmitter and read by a receiver with the same frame size come out in order, modulo 512 with 9 data bits and modulo 256 otherwise; writing changes no control bit but the ninth data bit.", "quantifier": "every sequence of characters and control register content", "why_tests_cant": "value space and register content", "anchors": ["Source/Code/ArduinoTemplateLibrary/AVR/UsartTransmit.h: UsartTransmit::WriteInternal", "Source/Code/ArduinoTemplateLibrary/AVR/UsartReceive.h: UsartReceive::Read, ReadInternal"]}
{"id": "C63", "title": "USART receive results", "statement": "The result is frame error, parity error, overrun or success in that priority; getHasError is true exactly for the first two flags; Read removes one character and returns -1 exactly when the result is not success; TryRead answers false and NotReady without a character and otherwise gives the character, the ninth bit included with 9 data bits, whatever the result.", "quantifier": "every status byte and queue", "why_tests_cant": "all combinations of flags", "anchors": ["Source/Code/ArduinoTemplateLibrary/AVR/UsartReceive.h: UsartReceive::getResult, getHasError, Read, TryRead"]}
{"id": "C64", "title": "USART Flush", "statement": "Flush discards nothing: with received data it returns at once and keeps it, and without any it reads the empty register until a character arrives, which it keeps.", "quantifier": "every queue and arrival", "why_tests_cant": "nontermination", "anchors": ["Source/Code/ArduinoTemplateLibrary/AVR/UsartReceive.h: UsartReceive::Flush"]}
{"id": "C65", "title": "A page on the display", "statement": "Displaying a page whose texts fit shows the text of every visible control on every visible line at the line's row and the control's column, later ones over earlier ones, and changes no other cell; the cursor is then at the current control, blinking exactly when it is selected, or off without one. Fails: the cursor of a focused or selected text control appears on the top line whatever its line; hiding a control leaves its text; blinking goes on without a cursor; lines with and without given positions collide; after a vertical panel the rest of its line is on another row.", "quantifier": "every page of lines of labels, fields and nested panels, every text, state of the display and sequence of pages displayed", "why_tests_cant": "composition of panels, display writer, view and display memory over unbounded texts and histories", "anchors": ["Source/Code/ArduinoTemplateLibrary/Page.h: Page::Add, Display, DisplayCursor", "Source/Code/ArduinoTemplateLibrary/Line.h: Line", "Source/Code/ArduinoTemplateLibrary/HorizontalPanel.h: HorizontalPanel::Display", "Source/Code/ArduinoTemplateLibrary/VerticalPanel.h: VerticalPanel::Display", "Source/Code/ArduinoTemplateLibrary/Panel.h: Panel::Display", "Source/Code/ArduinoTemplateLibrary/TextControl.h: TextControl::Display", "Source/Code/ArduinoTemplateLibrary/UpDownControl.h: UpDownControl::Display", "Source/Code/ArduinoTemplateLibrary/LabelControl.h: LabelControl::Display", "Source/Code/ArduinoTemplateLibrary/HD44780_DisplayWriter.h: HD44780_DisplayWriter"]}
{"id": "C66", "title": "The display gets the time it needs", "statement": "With any timing profile whose delays, together with the time the writes in between take, cover the execution times of a display, no calls of view and controller over any driver reach the display while it is busy, from power-on or later and however much longer the steps take; the display then takes the bytes of the calls in order. With less delay some calls are lost, after power-on the initialisation itself. Fails for the default profile and the data sheet's times when writes are fast: characters are followed by 8 us, commands by 23 us, clear and home by 808 us; the delays in the comments of the profile suffice.", "quantifier": "every profile, display speed, history of calls and duration of steps", "why_tests_cant": "real time and all histories of calls", "anchors": ["Source/Code/ArduinoTemplateLibrary/HD44780_Profile.h: HD44780_Profile", "Source/Code/ArduinoTemplateLibrary/HD44780_Driver.h: HD44780_Driver::PulseEnable", "Source/Code/ArduinoTemplateLibrary/HD44780_DriverI2C.h: HD44780_DriverI2C::PulseEnable", "Source/Code/ArduinoTemplateLibrary/HD44780_DriverSerial3Wire.h: HD44780_DriverSerial3Wire::PulseEnable", "Source/Code/ArduinoTemplateLibrary/HD44780_Controller.h: HD44780_Controller::Initialize, ClearDisplay, ReturnHome", "Source/Code/ArduinoTemplateLibrary/HD44780_View.h: HD44780_View::Write"]}
{"id": "C67", "title": "MIDI over a serial line", "statement": "With MidiWriter over a UsartOutputStream at one end and MidiReader over a UsartInputStream at the other, in every schedule with at most one handler run per wrap-around window, while no byte is refused or damaged, the receiver reports a prefix of the messages written, in order, and all of them when nothing is under way; with the receive interrupt on nothing gets stuck. Fails: unless the application turns the receive interrupt on nothing is ever received, because MidiReader::Read asks getLength before the Read that enables it; a full transmit buffer makes the receiver report a note nobody wrote.", "quantifier": "every history of messages, buffer size and interleaving of both main loops, both handlers and the line", "why_tests_cant": "interleavings of two programs and their interrupt handlers over unbounded histories", "anchors": ["Source/Code/ArduinoTemplateLibrary/MidiReader.h: MidiReader::Read", "Source/Code/ArduinoTemplateLibrary/MidiWriter.h: MidiWriter::Write", "Source/Code/ArduinoTemplateLibrary/AVR/UsartOutputStream.h: UsartOutputStream::Write, OnAcceptDataInterrupt", "Source/Code/ArduinoTemplateLibrary/AVR/UsartInputStream.h: UsartInputStream::Read, OnIsCompleteInterrupt"]}
{"id": "C68", "title": "Constants in program memory", "statement": "GetAt over an array in the first 64 KB of program memory returns the item for every valid index and the default value for every other, for integers of 1, 2 and 4 bytes of either sign and float; IndexOf finds the first match up to 127 items; StaticString::Read writes exactly targetLen bytes, the characters and then zeros. Fails: arrays beyond 64 KB read as something else; an array of double is read as integers; a string as long as the buffer is left without terminator.", "quantifier": "every memory content, item type, array, index, string and buffer length", "why_tests_cant": "all values, addresses and indices", "anchors": ["Source/Code/ArduinoTemplateLibrary/StaticArray.h: StaticArray::GetAt, IndexOf", "Source/Code/ArduinoTemplateLibrary/ProgMemAccessor.h: ProgMemAccessor::Read", "Source/Code/ArduinoTemplateLibrary/StaticString.h: StaticString::Read"]}
{"id": "C69", "title": "Arduino stream adapters", "statement": "Over any serial ports, attached and detached in any order: every call returns; a port sends exactly the bytes written while it was attached; unless bytes overflow the port or are cleared, what arrives at a port is what Read answers, in order, followed by what is waiting; without a port the calls do nothing and Read answers -1. MidiWriter and MidiReader over two ports transfer every message while no byte overflows. Fails: Clear never returns while a byte arrives for each one read; Flush waits and removes nothing; after an overflow of the receive buffer a note is reported that nobody wrote.", "quantifier": "every history of calls and arriving bytes, any number of ports, any buffer size, every history of messages", "why_tests_cant": "unbounded histories and arrival patterns; nontermination", "anchors": ["Source/Code/ArduinoTemplateLibrary/Arduino/StreamInputStream.h: StreamInputStream", "Source/Code/ArduinoTemplateLibrary/Arduino/StreamOutputStream.h: StreamOutputStream", "Source/Code/ArduinoTemplateLibrary/MidiReader.h: MidiReader::Read", "Source/Code/ArduinoTemplateLibrary/MidiWriter.h: MidiWriter::Write"]}
{"id": "C70", "title": "I2C output", "statement": "Write answers true exactly if the device acknowledged address and data, and up to 32 bytes true means the device got all of them; with all bytes acknowledged the I2C display driver delivers its nibbles through it. Fails: of more than 32 bytes the rest is dropped and the answer is true; the display driver ignores the answer, so one unacknowledged byte makes the display take other characters.", "quantifier": "every array, length and number of acknowledged bytes, every history of display calls", "why_tests_cant": "all failure points of the bus", "anchors": ["Source/Code/ArduinoTemplateLibrary/Arduino/SerialI2COutput.h: SerialI2COutput::Write", "Source/Code/ArduinoTemplateLibrary/HD44780_DriverI2C.h: HD44780_DriverI2C::WriteData, PulseEnable"]}
{"id": "C71", "title": "Arduino pins", "statement": "A pin object touches no other pin; a digital output has the level last asked for and getValue answers it, whatever happens at other pins; an input has the pull-up last asked for and reads the outside; an analog output on a timer pin gives the duty cycle asked for. The display driver at six different pins delivers its nibbles. Fails: the constructor with initial value first drives the old latch value; getValue and Toggle of an AnalogOutputPin turn the PWM off; an input made output again brings the PWM back; Write(true) of an AnalogOutputPin is a duty cycle of 1.", "quantifier": "every history of calls on any pins, every initial state of the board", "why_tests_cant": "interaction of pins, timers and histories of calls", "anchors": ["Source/Code/ArduinoTemplateLibrary/Arduino/DigitalOutputPin.h: DigitalOutputPin", "Source/Code/ArduinoTemplateLibrary/Arduino/DigitalInputPin.h: DigitalInputPin", "Source/Code/ArduinoTemplateLibrary/Arduino/AnalogOutputPin.h: AnalogOutputPin::Write", "Source/Code/ArduinoTemplateLibrary/HD44780_Driver.h: HD44780_Driver"]}
{"id": "C72", "title": "Example sketches: text on a display", "statement": "LCD.ino and I2CLCD.ino: whatever mode the display was in and whatever it showed, after setup it is on, scrolled home, without cursor, shows exactly the texts written with WriteLine, and the cursor is at the start of the next line; up to as many texts as rows, text k is on row k. Over I2C, with every byte acknowledged, the same and the backlight is on. Fails: after the last row the top row comes twice, so with more texts than rows the first text after the last row is overwritten by the next.", "quantifier": "every list of texts that fit, every display size, every six distinct pins, every initial state of display and board", "why_tests_cant": "the whole chain from WriteLine to the levels at the pins, for any text and any initial state", "anchors": ["Source/Code/ArduinoTemplateLibrary/Arduino Libraries/ATL_HD44780/examples/LCD/LCD.ino: setup", "Source/Code/ArduinoTemplateLibrary/Arduino Libraries/ATL_HD44780/examples/I2CLCD/I2CLCD.ino: setup", "Source/Code/ArduinoTemplateLibrary/HD44780_View.h: HD44780_View", "Source/Code/ArduinoTemplateLibrary/TextWriter.h: TextWriter::WriteLine"]}
{"id": "C73", "title": "Example sketches: pages", "statement": "PageController.ino: after k rounds the display shows the pages 0, 1, ... in order, starting again after the last, each drawn over what was there; if all pages write to the same cells it shows exactly the page of the round. Fails: turning the page does not clear the display, so a shorter text leaves the end of the one before.", "quantifier": "every number of pages and rounds, every text that fits, every six pins", "why_tests_cant": "unbounded number of rounds; picture of the whole screen", "anchors": ["Source/Code/ArduinoTemplateLibrary/Arduino Libraries/ATL_UI/examples/PageController/PageController.ino: setup, loop", "Source/Code/ArduinoTemplateLibrary/PageController.h: PageController", "Source/Code/ArduinoTemplateLibrary/Page.h: Page::Display"]}
{"id": "C74", "title": "Example sketches: timed tasks", "statement": "TimeoutTask.ino: with a slot for each task, every task fires by its own beat, undisturbed by the others and across the wrap of the clock, and its pin has toggled once for each time: it starts to wait in one round, fires in the first later round at least the timeout after, and starts again in the round after that. Fails as a period: with rounds of equal length it fires one round later than the timeout takes, every time.", "quantifier": "every number of tasks, every timeout, every sequence of round lengths below 2^32", "why_tests_cant": "interference of tasks in one table of delays, unbounded runs, clock wrap", "anchors": ["Source/Code/ArduinoTemplateLibrary/Arduino Libraries/ATL_Process/examples/TimeoutTask/TimeoutTask.ino: loop", "Source/Code/ArduinoTemplateLibrary/TimeoutTask.h: TimeoutTask::Execute", "Source/Code/ArduinoTemplateLibrary/Delays.h: Delays::Wait"]}
{"id": "C75", "title": "Example sketches: counter task", "statement": "Task.ino: Execute of a CounterTask always answers that it yielded; the first call enters it, and it prints its maximum once for each max + 1 further calls. (It has then counted to max + 1, not to max.) With the largest long as maximum nothing is ever printed: call 2^31 + 1 overflows the counter, which is undefined.", "quantifier": "every maximum of a long that is not negative, every number of calls", "why_tests_cant": "unbounded number of calls", "anchors": ["Source/Code/ArduinoTemplateLibrary/Arduino Libraries/ATL_Process/examples/Task/CounterTask.h: CounterTask::Execute", "Source/Code/ArduinoTemplateLibrary/Task.h: Task_YieldUntil"]}
{"id": "C76", "title": "Example sketches: button and input", "statement": "PushButton.ino: the lamp after each round follows from the contact and the round times alone - off when open, on when closed, flashing when held, unchanged while debouncing - whatever an unconnected input reads. DigitalInput.ino: from the first high level on the lamp shows the level read last (until then it keeps the level it had).", "quantifier": "every history of rounds, contact and input levels", "why_tests_cant": "unbounded histories with timing; noise on the input", "anchors": ["Source/Code/ArduinoTemplateLibrary/Arduino Libraries/ATL_Input/examples/PushButton/PushButton.ino: loop", "Source/Code/ArduinoTemplateLibrary/Arduino Libraries/ATL_IO/examples/DigitalInput/DigitalInput.ino: loop", "Source/Code/ArduinoTemplateLibrary/PushButton.h: PushButton::ScanButton", "Source/Code/ArduinoTemplateLibrary/DigitalInput.h: DigitalInput::Read"]}
{"id": "C77", "title": "PID in floating point", "statement": "PID with T = float or double: whatever the inputs, also infinities and NaN, every output is in the range of ClipValue or NaN. With moderate finite inputs every output is a number in the range, and outputs and integral differ from the exact ones by at most a rounding error per call. With whole inputs and terms up to 2^22 the outputs are exactly those of the integer controller. An error in the dead band resets the integral, also from NaN. Fails: with an integral gain one NaN reading makes this and every later output NaN until an error falls in the dead band; a call with a delta time of 0 and a differential gain returns NaN or an end of the range; in binary32 an error of 1 never moves an integral of 2^24, however long it lasts.", "quantifier": "every sequence of calls, every binary format from binary32 on, every filter", "why_tests_cant": "unbounded histories; rounding, infinities and NaN of all floating point data", "anchors": ["Source/Code/ArduinoTemplateLibrary/PID.h: PID::Process", "Source/Code/ArduinoTemplateLibrary/PID.h: PID::CalcError, CalcP, CalcI, CalcD", "Source/Code/ArduinoTemplateLibrary/Range.h: Range::ClipValue"]}
{"id": "C78", "title": "Text controls that share an iterator", "statement": "Pages, lines and page controllers with any number of TextControls that share one CharacterIterator: after any navigation commands every control holds exactly the text and edit position of an editor of its own, as if nothing were shared, and the panels navigate as with plain fields. With any nesting of panels, characters and texts nothing is undefined, no byte outside the texts changes, and a command changes at most the character being edited in a selected control, by Up or Down. Fails: a text control inside a panel on a line can be left while selected; after another control moved the iterator, Up gives it the successor of the other control's character.", "quantifier": "every tree of pages, lines and controls, every character set, every sequence of commands", "why_tests_cant": "interference through the shared iterator over unbounded command histories and trees", "anchors": ["Source/Code/ArduinoTemplateLibrary/TextControl.h: TextControl::OnNavigationCommand", "Source/Code/ArduinoTemplateLibrary/TextControl.h: TextControl::setState", "Source/Code/ArduinoTemplateLibrary/Page.h: Page::OnNavigationCommand", "Source/Code/ArduinoTemplateLibrary/Panel.h: Panel::setCurrentControl", "Source/Code/ArduinoTemplateLibrary/Iterator.h: Iterator"]}
{"id": "C79", "title": "Example sketches: text box", "statement": "The program of TextBox.ino with any page and any commands: whatever the display showed, after the last command it is on, shows exactly the page with the texts of the editors, and the cursor is at the current control, blinking if it is selected. TextBox.ino itself: after k rounds the first character of the text has gone on by 3k, the second by 4k, up to the last character of the set, and the cursor is off.", "quantifier": "every page that fits, every command sequence, every number of rounds, every six pins and initial state of the display", "why_tests_cant": "the whole chain from command to pins for unbounded runs", "anchors": ["Source/Code/ArduinoTemplateLibrary/Arduino Libraries/ATL_UI/examples/TextBox/TextBox.ino: setup, loop", "Source/Code/ArduinoTemplateLibrary/Page.h: Page::Display", "Source/Code/ArduinoTemplateLibrary/TextControl.h: TextControl::Display"]}
{"id": "C80", "title": "Streams byte by byte", "statement": "With the 16-bit cursors of the stream buffers loaded and stored one byte at a time, in either order, at any address: as long as the handler runs at most once while a cursor in memory is neither the old nor the new one, nothing is accessed out of bounds, the bytes sent are a prefix of those accepted and the bytes returned are those received, in order, and everything accepted is eventually sent. With a buffer of up to 256 bytes a Write is refused only if the buffer was full when it began, a Read that begins with something queued does not answer -1, and a character is dropped only if Size-1 bytes wait. Fails above 256 bytes: one interrupt between two loads makes Write refuse with half the buffer free, Read answer -1 with 255 bytes queued, and a character is dropped with half the buffer free.", "quantifier": "every schedule, buffer size, address, byte order and data", "why_tests_cant": "interleavings at instruction granularity", "anchors": ["Source/Code/ArduinoTemplateLibrary/RingBuffer.h: RingBuffer::Write, Read, getLength", "Source/Code/ArduinoTemplateLibrary/AVR/UsartOutputStream.h: UsartOutputStream::Write", "Source/Code/ArduinoTemplateLibrary/AVR/UsartInputStream.h: UsartInputStream::Read"]}
{"id": "C81", "title": "Text on a serial port", "statement": "TextWriter over the Arduino output stream with any TextFormatInfo: for every program of Write and WriteLine with values that can be written, attaching and detaching ports and input in between, nothing is undefined and each port sends exactly the texts of the calls made while it was attached. What is written with WriteLine can be read back: at any moment the complete lines among the bytes sent are the values written, in order (integers and strings exactly, reals to half a unit of the last decimal plus rounding). TextWriter.ino sends Hello World!, 42, 3.14; TextFormatInfo.ino Hello World!, 2A, 3,1416.", "quantifier": "every program, format, value, number of ports and point in time", "why_tests_cant": "unbounded programs; all values and formats; every cut of the byte stream", "anchors": ["Source/Code/ArduinoTemplateLibrary/TextWriter.h: TextWriter::Write, WriteLine", "Source/Code/ArduinoTemplateLibrary/TextFormatInfo.h: TextFormatInfo", "Source/Code/ArduinoTemplateLibrary/Arduino/StreamOutputStream.h: StreamOutputStream::Write", "Source/Code/ArduinoTemplateLibrary/Arduino Libraries/ATL_IO/examples/TextWriter/TextWriter.ino: setup", "Source/Code/ArduinoTemplateLibrary/Arduino Libraries/ATL_IO/examples/TextFormatInfo/TextFormatInfo.ino: setup"]}
{"id": "C82", "title": "Distance sensor over serial ports", "statement": "A program measuring distances over Arduino serial ports, with the sensor at the other end: whatever the order in which measurements begin, the sensor answers, bytes arrive and EndDistance polls, as long as the port loses no byte the distances delivered are those measured for the first commands, in order, and all of them once everything has arrived and was polled. With at most k measurements open a port of 4k bytes loses nothing. A program that begins only after the distance before was delivered gets from each successful EndDistance the distance of its latest command. Fails: after giving up waiting and beginning anew, the old distance is delivered for the new command; a failed measurement is answered like an empty port, so a program waiting for it waits for ever.", "quantifier": "every interleaving of program, sensor and line, every measurements and port capacity", "why_tests_cant": "unbounded interleavings of two parties", "anchors": ["Source/Code/ArduinoTemplateLibrary/URM37V32_Controller.h: URM37V32_Controller::BeginDistance, EndDistance", "Source/Code/ArduinoTemplateLibrary/URM37V32_Driver.h: URM37V32_Driver::SendCommand, ReceiveResponse", "Source/Code/ArduinoTemplateLibrary/Arduino/StreamInputStream.h: StreamInputStream::Read, getLength", "Source/Code/ArduinoTemplateLibrary/Arduino/StreamOutputStream.h: StreamOutputStream::Write"]}
{"id": "C83", "title": "Motors at the pins of a board", "statement": "Any number of TB6612FNG drivers at different pins, with PWM at timer pins, in any program that does nothing else with these pins: each motor does what the last command to it asks (speed 0 turns with duty 1), also during every single pin call for other pins; after a reset it is off through all constructors up to its first command. While its pins change one by one it never turns in a direction neither the old nor the new command asks for, except between Stop and Break. (At a pin without a timer speeds below 128 brake and the others are full speed.)", "quantifier": "every number of motors, every pins, initial board, program and point in time", "why_tests_cant": "unbounded programs; every intermediate state of the pins", "anchors": ["Source/Code/ArduinoTemplateLibrary/TB6612FNG_Controller.h: TB6612FNG_Controller::Stop, Break, Clockwise, CounterClockwise", "Source/Code/ArduinoTemplateLibrary/TB6612FNG_Driver.h: TB6612FNG_Driver::Send", "Source/Code/ArduinoTemplateLibrary/Arduino/DigitalOutputPin.h: DigitalOutputPin", "Source/Code/ArduinoTemplateLibrary/Arduino/AnalogOutputPin.h: AnalogOutputPin::Write"]}
{"id": "C84", "title": "Blocking delays", "statement": "Delay<Microseconds>::Wait on an Arduino at 16 MHz waits at least as long as asked exactly for timeouts up to 16385, and from 2 on not longer than the rest of the call. Delay<Milliseconds>::Wait, however its loop is delayed, never ends more than 4 microseconds early, and if the loop reads the clock every 996 microseconds it ends within a millisecond of the timeout, for every timeout and across the wrap of the clock. On AVR without Arduino both wait the time asked to within a part in 2^21 and a cycle, exactly below 2^24 cycles at whole megahertz up to 16. So the delays of a display profile are as long as C66 assumes, but for 4 microseconds after power-on. Fails: Wait(16386) microseconds takes less than 5, Wait(65536) nothing; a millisecond can end early; five minutes are undefined on AVR.", "quantifier": "every timeout, clock, start time and sequence of clock readings", "why_tests_cant": "all 2^32 timeouts; arbitrary interruption of the loop; float rounding at compile time", "anchors": ["Source/Code/ArduinoTemplateLibrary/Delay.h: Delay::Wait", "Source/Code/ArduinoTemplateLibrary/Arduino/Delay_Arduino.h: Delay::Wait", "Source/Code/ArduinoTemplateLibrary/AVR/Delay_Avr.h: Delay::Wait", "Source/Code/ArduinoTemplateLibrary/HD44780_Profile.h: HD44780_Profile"]}
{"id": "C85", "title": "Display timing with the real delays", "statement": "For any timing profile and any display, on an Arduino at 16 MHz or on AVR at 1 to 16 MHz, over pins, I2C or a shift register: every sequence of calls reaches the display when it is not busy exactly if the display's times are covered by the delays as Delay.h really makes them plus the writes between them; from power-on a full initialisation and all later calls arrive in order. A profile whose delays are at most 16385 microseconds (a second after power-on, with 4 microseconds to spare) needs no more than C66 asks of it. Fails: on an Arduino the longer delay of 16.4 ms after a slow command is too short where 1.64 ms is enough.", "quantifier": "every profile, display, history of calls, duration of the steps and board", "why_tests_cant": "unbounded histories; depends on cycle counts no host test has", "anchors": ["Source/Code/ArduinoTemplateLibrary/HD44780_Profile.h: HD44780_Profile", "Source/Code/ArduinoTemplateLibrary/HD44780_Controller.h: Initialize", "Source/Code/ArduinoTemplateLibrary/HD44780_Driver.h: Write4", "Source/Code/ArduinoTemplateLibrary/HD44780_DriverI2C.h: Write4", "Source/Code/ArduinoTemplateLibrary/HD44780_DriverSerial3Wire.h: Write4", "Source/Code/ArduinoTemplateLibrary/Arduino/Delay_Arduino.h: Delay::Wait", "Source/Code/ArduinoTemplateLibrary/AVR/Delay_Avr.h: Delay::Wait"]}
{"id": "C86", "title": "Example sketches: blink and page", "statement": "Blink.ino, at any pin and with any delay, changes its pin in every round, first to high; two changes are never more than 4 microseconds closer than the delay, and with the clock read every 996 microseconds less than a millisecond and the time between rounds further apart. Page.ino, at any six pins and with any page that fits, ends with the page on the screen and no cursor, whatever mode the display was in; its LcdDisplayWriter can draw a page again at any time, changing nothing but the page's cells.", "quantifier": "every pin, delay, sequence of clock readings, page, display mode and initial display", "why_tests_cant": "unbounded rounds; arbitrary clock readings; any page", "anchors": ["Source/Code/ArduinoTemplateLibrary/Arduino Libraries/ATL_IO/examples/Blink/Blink.ino: loop", "Source/Code/ArduinoTemplateLibrary/Arduino Libraries/ATL_UI/examples/Page/Page.ino: setup", "Source/Code/ArduinoTemplateLibrary/Arduino Libraries/ATL_UI/examples/Page/LcdDisplayWriter.h: LcdDisplayWriter", "Source/Code/ArduinoTemplateLibrary/Arduino/DigitalOutputPin.h: DigitalOutputPin::Toggle"]}
{"id": "C87", "title": "USART streams as an optimising compiler may build them", "statement": "RingBuffer's cursors are not volatile, so a compiler may keep them in registers during a call and order the stores as it likes. With cursors loaded and stored at once, or byte by byte in a buffer inside one 256-byte page, and the handler running between any two accesses: bytes are sent in the order written, none lost, doubled or invented, exactly if the compiler stores the item before the cursor; the interrupt is on whenever something is queued between Writes exactly if it is also switched on after that store, and then everything gets sent; a Write that begins with space succeeds. Reading is right in every order: bytes arrive in order, a Read that begins with something queued delivers, the handler drops a byte only if Size - 1 are queued. Fails: byte by byte across a page boundary no order is right, for either direction.", "quantifier": "every schedule of calls and interrupts, every order of stores, buffer size and address, memory content", "why_tests_cant": "depends on the compiler's choice and the exact instruction an interrupt falls on", "anchors": ["Source/Code/ArduinoTemplateLibrary/RingBuffer.h: Write", "Source/Code/ArduinoTemplateLibrary/RingBuffer.h: Read", "Source/Code/ArduinoTemplateLibrary/RingBuffer.h: getLength", "Source/Code/ArduinoTemplateLibrary/AVR/UsartOutputStream.h: Write", "Source/Code/ArduinoTemplateLibrary/AVR/UsartOutputStream.h: OnAcceptDataInterrupt", "Source/Code/ArduinoTemplateLibrary/AVR/UsartInputStream.h: Read", "Source/Code/ArduinoTemplateLibrary/AVR/UsartInputStream.h: OnIsCompleteInterrupt"]}
{"id": "C88", "title": "Collections over shared memory", "statement": "Any number of CollectionRef objects over arrays anywhere in a buffer, overlapping or not, mixed with direct writes to the arrays: each collection is a list in which the others' writes show up at the item they hit; its length depends only on its own calls, over arrays that do not overlap so do its items, and no write leaves the buffer. Characters added to a cleared FixedString<n> of up to 255 characters make the text of the first n of them. Fails: two collections over one array overwrite each other's items; Clear of a collection over a string leaves the old text behind the new one; a string of 256 characters takes none.", "quantifier": "every placement of the arrays, number of collections, history of calls, item type and initial memory", "why_tests_cant": "unbounded histories over arbitrarily overlapping storage", "anchors": ["Source/Code/ArduinoTemplateLibrary/CollectionRef.h: Add", "Source/Code/ArduinoTemplateLibrary/CollectionRef.h: SetAt", "Source/Code/ArduinoTemplateLibrary/CollectionRef.h: Clear", "Source/Code/ArduinoTemplateLibrary/CollectionRef.h: GetAt", "Source/Code/ArduinoTemplateLibrary/FixedArrayRef.h: SetAt", "Source/Code/ArduinoTemplateLibrary/FixedArrayRef.h: Clear", "Source/Code/ArduinoTemplateLibrary/FixedString.h: getCapacity"]}
{"id": "C89", "title": "BitArray over signed types", "statement": "BitArray<T> for a signed T with the shifts of gcc: a field written reads back, fields beside it keep their value; a field that ends at the sign bit reads as a signed number, any other as unsigned. Single bits of types up to int behave like a vector of bits under any history, except that IsTrue denies the sign bit of int itself. Reverse mirrors the bits; ShiftUp fills with false. Fails: 9 written to the upper half of an int8_t reads as -7; bit 15 of BitArray<int> on AVR, once set, is neither true nor false; ShiftDown does not set false but repeats the sign bit.", "quantifier": "every width of T and int, every content, field and history of calls", "why_tests_cant": "all widths and values; unbounded histories", "anchors": ["Source/Code/ArduinoTemplateLibrary/BitArray.h: Set", "Source/Code/ArduinoTemplateLibrary/BitArray.h: Get", "Source/Code/ArduinoTemplateLibrary/BitArray.h: CreateMask", "Source/Code/ArduinoTemplateLibrary/BitArray.h: Reset", "Source/Code/ArduinoTemplateLibrary/BitArray.h: IsTrue", "Source/Code/ArduinoTemplateLibrary/BitArray.h: IsFalse", "Source/Code/ArduinoTemplateLibrary/BitArray.h: Reverse", "Source/Code/ArduinoTemplateLibrary/BitArray.h: ShiftUp", "Source/Code/ArduinoTemplateLibrary/BitArray.h: ShiftDown"]}
{"id": "C90", "title": "Task macros as C statements", "statement": "The statements the macros of Task.h expand to, entered through the switch, do what the body means as a sequential program whose pauses block until the next call, for every body in which macros governed by if or while stand in braces. Fails: if (e) Task_Return() without braces returns whatever e is; if (e) Task_WaitUntil(f) tests f although e is false and resumes elsewhere; while (e) Task_YieldUntil(f) does not return while e holds; of two task methods sharing _task, the second ends at once while the first is paused and makes it start again.", "quantifier": "every task body, memory, actions and conditions, number of calls and changes between them", "why_tests_cant": "unbounded programs: the claim is about every body a user may write", "anchors": ["Source/Code/ArduinoTemplateLibrary/Task.h: Task_Begin", "Source/Code/ArduinoTemplateLibrary/Task.h: Task_End", "Source/Code/ArduinoTemplateLibrary/Task.h: Task_WaitUntil", "Source/Code/ArduinoTemplateLibrary/Task.h: Task_YieldUntil", "Source/Code/ArduinoTemplateLibrary/Task.h: Task_Return"]}
{"id": "C91", "title": "Ranges and Abs of floating point numbers", "statement": "Range<T>, ValueContainer<T> and Math::Abs<T> for float and double: IsInRange is true exactly for values between the ends in either order, never with NaN; Normalize keeps that set and orders the ends unless one is NaN; ClipValue on a normalised range keeps values inside bit for bit and replaces others by the end they are beyond; a container accepts the set last selected after any history; Abs is exact for all numbers and infinities. Fails: ClipValue lets NaN pass, and a NaN end does not limit anything; a container set to NaN does not accept NaN; Abs(-0) keeps its sign, so that 1/Abs(-0) is minus infinity.", "quantifier": "every binary format from 24 bits on, every data (zeros, subnormal numbers, infinities, NaN), every history", "why_tests_cant": "2^32 to 2^64 values for each end and argument; special values are what tests leave out", "anchors": ["Source/Code/ArduinoTemplateLibrary/Range.h: IsInRange", "Source/Code/ArduinoTemplateLibrary/Range.h: Normalize", "Source/Code/ArduinoTemplateLibrary/Range.h: IsNormalized", "Source/Code/ArduinoTemplateLibrary/Range.h: ClipValue", "Source/Code/ArduinoTemplateLibrary/ValueContainer.h: ValueContainer", "Source/Code/ArduinoTemplateLibrary/Math.h: Abs"]}
{"id": "C92", "title": "Displays and motors on one chain of shift registers", "statement": "Any number of HD44780 displays and TB6612FNG motors share one BitArray and one chain of 74HC595 registers, each with bits of its own. For every interleaving of their calls, at every pin write: from its setDataRegister on, a display takes exactly the nibbles of its own calls, RS and data stable at each falling edge; the pins of a motor are those of its own last call, both direction lines change at one instant, and on the way it turns in no direction but the old and the new; outputs nobody owns keep their bit. Fails: a motor used before setDataRegister reads through NULL (the display then does nothing); a device attached before the display can make the display take a nibble nobody sent.", "quantifier": "every number of devices, layout of bits, width, array and chain content, and interleaved history of calls", "why_tests_cant": "unbounded interleavings over a shared array, observed at every pin write", "anchors": ["Source/Code/ArduinoTemplateLibrary/HD44780_DriverSerial3Wire.h: setDataRegister", "Source/Code/ArduinoTemplateLibrary/HD44780_DriverSerial3Wire.h: WriteCommand", "Source/Code/ArduinoTemplateLibrary/HD44780_DriverSerial3Wire.h: WriteData", "Source/Code/ArduinoTemplateLibrary/TB6612FNG_DriverSerial3Wire.h: setDataRegister", "Source/Code/ArduinoTemplateLibrary/TB6612FNG_DriverSerial3Wire.h: Send", "Source/Code/ArduinoTemplateLibrary/TB6612FNG_Controller.h: Clockwise", "Source/Code/ArduinoTemplateLibrary/Serial3WireOutput.h: WriteReverse"]}
{"id": "C93", "title": "Object ids keep delays apart", "statement": "Objects that share one Delays and pass their getId each have a timer of their own, as if Delays knew them by their address, on any board where their addresses differ in the low 16 bits and none of these are 0. On AVR (64 KB, nothing at address 0) that is so for any objects that do not overlap: getId is different for each and never 0. Fails: with more than 64 KB of memory two objects can share an id, and the delay of one then ends early because the polls of the other count for it; an object at a multiple of 64 KB has id 0, and its delay is over at once.", "quantifier": "every number, placement and size of objects, slots, and interleaved history of calls", "why_tests_cant": "the ids are addresses: which collide depends on the linker; unbounded histories", "anchors": ["Source/Code/ArduinoTemplateLibrary/IdentifiableObject.h: getId", "Source/Code/ArduinoTemplateLibrary/Delays.h: Wait", "Source/Code/ArduinoTemplateLibrary/Delays.h: IsWaiting", "Source/Code/ArduinoTemplateLibrary/Delays.h: Clear", "Source/Code/ArduinoTemplateLibrary/PushButton.h: Execute", "Source/Code/ArduinoTemplateLibrary/TimeoutTask.h: Execute"]}
{"id": "C94", "title": "Debug messages", "statement": "In a debug build with an AtlDebugWrite, the messages passed to it are exactly those for which AtlDebugLevel answers true, in order (all, if there is no AtlDebugLevel); in any other build there are none. When CanLog answers false, Log writes nothing; when it answers true, Log writes the message if there is an AtlDebugWrite. Fails: CanLog answers true in a debug build that has no AtlDebugWrite.", "quantifier": "every build, AtlDebugLevel and sequence of messages", "why_tests_cant": "every filter function; each build is a different program", "anchors": ["Source/Code/ArduinoTemplateLibrary/Debug.h: Log", "Source/Code/ArduinoTemplateLibrary/Debug.h: CanLog"]}
{"id": "C95", "title": "Receiving a character while others are unread", "statement": "The USART keeps three unread characters. Whatever comes in and whenever it is read, characters are read in order, each once, with the overrun flag exactly on a character right after a lost one, and one character is lost for each start bit that comes while three are unread; without such a start bit nothing is lost and nothing flagged; that is so if every character is read within less than two character times of its end, and two character times can be too late. Of characters that arrive while nobody reads, up to three are kept; of more, the first two and, flagged, the last. TryRead answers the oldest unread character and takes it, and false only when there is none. UsartInputStream over it: if no start bit comes with three unread, and the ring buffer had room, the characters sent are, in order, those Read answered, those queued and those in the hardware - including up to three that arrived before the first Read. Fails to salvage: an overrun costs at least one character more than the hardware lost, because Read and the handler drop the intact flagged one.", "quantifier": "every sequence of start bits, characters, register reads, handler runs and steps of Read (at most one handler run while Read has its cursor past the end)", "why_tests_cant": "all arrival times against all handler latencies; an overrun needs the hardware and a blocked interrupt", "anchors": ["Source/Code/ArduinoTemplateLibrary/AVR/UsartReceive.h: TryRead", "Source/Code/ArduinoTemplateLibrary/AVR/UsartReceive.h: getResult", "Source/Code/ArduinoTemplateLibrary/AVR/UsartInputStream.h: OnIsCompleteInterrupt", "Source/Code/ArduinoTemplateLibrary/AVR/UsartInputStream.h: Read"]}
{"id": "C96", "title": "Sending a character while others are on their way", "statement": "Whatever is called when, the characters taken by UsartTransmit Write and TryWrite go out in order, each once, and at most two are outstanding; TryWrite answers false exactly when two are, and then does nothing. UsartOutputStream: what its buffer accepted is, in order, what is on the line, up to two characters in the hardware and those queued, and between calls the handler and the hardware alone bring all of it to the line and the interrupt is then off. getIsComplete answers true exactly if, since the last transmit complete interrupt or ever, the transmitter has sent a character and then had nothing to send. Fails: Flush does not block until all data has been transmitted but until at most one character is outstanding; getIsComplete, once true, stays true while later characters are on their way; WaitIsComplete does not return if nothing was written before.", "quantifier": "every sequence of calls, ends of characters, handler runs and steps of Write (at most one handler run while Write has its cursor past the end)", "why_tests_cant": "timing of the hardware against all calls; a call that never returns", "anchors": ["Source/Code/ArduinoTemplateLibrary/AVR/UsartTransmit.h: Write", "Source/Code/ArduinoTemplateLibrary/AVR/UsartTransmit.h: TryWrite", "Source/Code/ArduinoTemplateLibrary/AVR/UsartTransmit.h: Flush", "Source/Code/ArduinoTemplateLibrary/AVR/UsartTransmit.h: getIsComplete", "Source/Code/ArduinoTemplateLibrary/AVR/UsartTransmit.h: WaitIsComplete", "Source/Code/ArduinoTemplateLibrary/AVR/UsartOutputStream.h: OnAcceptDataInterrupt"]}
{"id": "C97", "title": "Emptying a stream while its interrupt is on", "statement": "Flush and Close of UsartOutputStream between calls of Write: as long as the handler runs no more often than bytes are queued before Clear has stored its second cursor, what has been sent is a prefix of what was accepted, and the buffer is empty; after Close the handler does nothing. Fails: if the buffer has run empty, its interrupt is still on, its write cursor is not at the start and the handler runs once between the two stores, a byte is sent that nobody wrote then (the one that the next cell holds from before, possibly uninitialised). Clear of UsartInputStream while characters arrive between the stores: afterwards the buffer holds the first of these, as many as fit below the old read cursor, and nothing else.", "quantifier": "every history of the stream before, every number of handler runs before, between and after the stores, every list of characters", "why_tests_cant": "an interrupt between two particular instructions", "anchors": ["Source/Code/ArduinoTemplateLibrary/RingBuffer.h: Clear", "Source/Code/ArduinoTemplateLibrary/AVR/UsartOutputStream.h: Flush", "Source/Code/ArduinoTemplateLibrary/AVR/UsartOutputStream.h: Close", "Source/Code/ArduinoTemplateLibrary/AVR/UsartInputStream.h: Clear"]}
{"id": "C98", "title": "From Write on one board to Read on another", "statement": "Two boards, UsartOutputStream on one and UsartInputStream on the other, with data, shift and buffer registers of both USARTs in between: if the receiver got the first n characters sent, no start bit found three unread there and its ring buffer had room, then what Read answered, what is queued and what is in the hardware are, in order, the first n bytes that Write accepted; what has been read is always a prefix of what was accepted.", "quantifier": "every schedule of calls, steps, handler runs and characters on both boards (at most one handler run inside each wrap-around window)", "why_tests_cant": "two processors and a line, all interleavings", "anchors": ["Source/Code/ArduinoTemplateLibrary/AVR/UsartOutputStream.h: Write", "Source/Code/ArduinoTemplateLibrary/AVR/UsartInputStream.h: Read"]}
{"id": "C99", "title": "MIDI messages on every board", "statement": "MidiMessage keeps its members in a union whose layout depends on the board: sizes of the enum and of int, padding, byte order. On every layout the three setters, whatever memory held before, make status, data bytes and the members of the message's type read back; MidiReader makes the same reports on any bytes as on AVR, so legal streams are reported exactly; what MidiWriter writes on one board MidiReader reports on another; CopyTo gives the target all members and leaves memory around it alone. Fails: members not of the message's type overlap differently on each board (Beats and Note).", "quantifier": "every layout with an enum of at least a byte, an int of at least two and room for the members; any previous memory, any bytes, any list of messages", "why_tests_cant": "tests run on one machine with one layout", "anchors": ["Source/Code/ArduinoTemplateLibrary/Source/Code/ArduinoTemplateLibrary/MidiMessage.h: MidiMessage", "Source/Code/ArduinoTemplateLibrary/Source/Code/ArduinoTemplateLibrary/MidiReader.h: MidiReader", "Source/Code/ArduinoTemplateLibrary/Source/Code/ArduinoTemplateLibrary/MidiWriter.h: MidiWriter"]}
{"id": "C100", "title": "Characters bit by bit between two boards", "statement": "Two boards, each with its own clock, both set up by InitAsync with the same rate, 5 to 8 data bits and the same parity and opened, understand each other on the level of bits: whatever the phase between their clocks and the pauses between frames, the receiver hears exactly the characters sent, cut to the data bits, in order, without frame or parity error, each not before its stop bit begins and not later than it ends - provided the baud register is at least 42 at the sender and 26 at the receiver; with equal clocks it holds for every register value, and in general whenever the two rates are so close that the samples of the stop bit fall into it. Each bit is what two of its three samples show; a line held low is heard once, as a zero with a frame error; a low pulse is ignored below half a bit and heard as a character of ones from there to a bit and a half. Fails: InitAsync answers true for rates so far off that another board hears a different character without an error flag (14400 at 1 MHz); a board of another make set to the parity that was asked for finds the parity of every character wrong.", "quantifier": "every pair of clocks, rate, register value, frame format of 5 to 8 bits, list of characters, pauses between them, phase, number of samples", "why_tests_cant": "the combinations of clock, rate, phase and data are too many, and tests on one machine have no line with two clocks", "anchors": ["Source/Code/ArduinoTemplateLibrary/Source/Code/ArduinoTemplateLibrary/AVR/UsartConfig.h: InitAsync", "Source/Code/ArduinoTemplateLibrary/Source/Code/ArduinoTemplateLibrary/AVR/Usart.h: OpenAsync"]}
{"id": "C101", "title": "From Write to Read across two clocks", "statement": "UsartOutputStream on one board, UsartInputStream on another with a different clock, both set up by InitAsync with the same rate, 8 data bits and the same parity (baud register at least 42 and 26), or in any other way with rates near enough: whatever the schedules of main program and interrupt handlers on both sides, the pauses between characters and the phase between the clocks, if the receiver's handler lets no character wait as long as two characters take, the values Read has answered, is about to answer, the ring buffer and the hardware hold are, in order, the first bytes that Write accepted; every byte whose frame is over is among them unless the ring buffer was full.", "quantifier": "every pair of clocks, rate, schedule on both boards (at most one handler run inside each wrap-around window), times of the frames, phase, buffer sizes", "why_tests_cant": "needs two boards, and the schedules of both with the phase of their clocks are too many to test", "anchors": ["Source/Code/ArduinoTemplateLibrary/Source/Code/ArduinoTemplateLibrary/AVR/UsartOutputStream.h: UsartOutputStream", "Source/Code/ArduinoTemplateLibrary/Source/Code/ArduinoTemplateLibrary/AVR/UsartInputStream.h: UsartInputStream", "Source/Code/ArduinoTemplateLibrary/Source/Code/ArduinoTemplateLibrary/AVR/UsartConfig.h: InitAsync"]}
{"id": "C102", "title": "A receiver on a line that carries anything", "statement": "UsartInputStream on a line with any levels whatever (breaks, pulses, noise, a sender with other settings), any schedule of handler and Read: of the characters the receiver makes of the levels, Read answers in order only such that arrived without frame error, parity error or overrun flag; all those without frame and parity error, if no character waits as long as two take and the ring buffer is never full. TryRead tells the first of the errors in the order frame, parity, overrun; Read answers -1 for any. Once the line has been idle for the time from a start bit to the vote on its stop bit, every character of a sender with the same settings is received as sent, whatever the line carried before. Fails without such a pause: a receiver opened in the middle of a stream of characters 247 without pauses hears other characters, without an error, for as long as the stream lasts; and if the parities differ the stream stays silent, without a sign of an error.", "quantifier": "every line (function from sample to level), register contents with 5 to 8 data bits, schedule of the software (at most one handler run inside each wrap-around window), buffer size; for recovery every pair of clocks with near enough rates, phase, times of the frames", "why_tests_cant": "noise on a line cannot be produced on demand, and the lines are infinitely many", "anchors": ["Source/Code/ArduinoTemplateLibrary/Source/Code/ArduinoTemplateLibrary/AVR/UsartInputStream.h: UsartInputStream", "Source/Code/ArduinoTemplateLibrary/Source/Code/ArduinoTemplateLibrary/AVR/UsartReceive.h: UsartReceive", "Source/Code/ArduinoTemplateLibrary/Source/Code/ArduinoTemplateLibrary/AVR/UsartConfig.h: UsartConfig"]}
{"id": "C103", "title": "Local variables and parameters of a task", "statement": "In a task method that reads no local variable which may not have been set since the last pause (a check on its text: branches, loops, waits), the contents of the stack have no influence: called repeatedly it performs the same actions and tests, gives the same answers and leaves the same memory as a sequential program with lasting variables, a parameter having the value of the latest call. Without that condition it fails: for (i = 0; i < n; i++) { Task_Yield(); work(); } with a local i is meant to work n times in n + 1 calls; depending on the stack it goes on for ever or ends after one round.", "quantifier": "every body of a task method (macros in braces), every memory type, statement and expression, sequence of calls with their arguments, change of memory between them, contents of the stack at each call", "why_tests_cant": "what is on the stack at a call depends on compiler and history; a test usually finds the old value still there", "anchors": ["Source/Code/ArduinoTemplateLibrary/Source/Code/ArduinoTemplateLibrary/Task.h: Task_BeginWithParams", "Source/Code/ArduinoTemplateLibrary/Source/Code/ArduinoTemplateLibrary/Task.h: Task_YieldUntil", "Source/Code/ArduinoTemplateLibrary/Source/Code/ArduinoTemplateLibrary/Task.h: Task_WaitUntil"]}
{"id": "C104", "title": "MIDI between two boards, bit by bit", "statement": "MidiWriter over UsartOutputStream on one board, MidiReader over UsartInputStream on another, each with its own clock, 8 data bits, the same parity and rates near enough: if no byte was refused on the sending side, the line has the bytes of the messages in order, all but those still to be written and at most Size + 2 on their way. If the receiving program has called UsartInputStream::Read once (finding of C67), its handler lets no character wait as long as two take and finds room in the ring buffer, then what MidiReader reports is, in order and with the same contents, the first of the messages given to Write, whatever the schedules on both boards, the pauses on the line and the phase of the clocks; it is all of them once the frames of all bytes are over, the handler has taken the characters and MidiReader::Read has been called once for each byte in the ring buffer. 31250 baud at 16 MHz is covered.", "quantifier": "every sequence of valid messages and single-byte messages, pair of clocks and register settings with near enough rates, schedule on both boards (at most one handler run inside each wrap-around window), times of the frames, phase, buffer sizes, contents of the memory", "why_tests_cant": "needs two boards with their own clocks, and the schedules with the phase are too many to test", "anchors": ["Source/Code/ArduinoTemplateLibrary/Source/Code/ArduinoTemplateLibrary/MidiWriter.h: MidiWriter", "Source/Code/ArduinoTemplateLibrary/Source/Code/ArduinoTemplateLibrary/MidiReader.h: MidiReader", "Source/Code/ArduinoTemplateLibrary/Source/Code/ArduinoTemplateLibrary/AVR/UsartOutputStream.h: UsartOutputStream", "Source/Code/ArduinoTemplateLibrary/Source/Code/ArduinoTemplateLibrary/AVR/UsartInputStream.h: UsartInputStream"]}
{"id": "C105", "title": "Interrupts served in time keep the streams in order", "statement": "Let the program go on while a handler is due for one instruction only (after the return from a handler, or after the interrupt was enabled, as AVR has it with interrupts on), and let at most one character be completed during each call of UsartInputStream::Read, and be sent completely during each call of UsartOutputStream::Write. Then at most one handler run falls into each wrap-around window of the ring buffers, so what C04, C95, C98, C101 and C104 say of bytes and MIDI messages between two boards, and C102 of a line that may carry anything, holds without a premise on windows. At most one character is completed during a call that is shorter than a character takes. Neither premise can be left out: if two characters wait while the program goes on (interrupts off), or if two are completed during one call, received characters that the buffer accepted are lost, and characters are sent twice.", "quantifier": "every schedule of calls, steps, handler runs and characters that keeps the premises, buffer size, contents of the memory; for the line every pair of clocks and register settings with near enough rates, times of the frames and phase", "why_tests_cant": "the moment of an interrupt relative to an instruction cannot be chosen by a test", "anchors": ["Source/Code/ArduinoTemplateLibrary/Source/Code/ArduinoTemplateLibrary/RingBuffer.h: RingBuffer::Write, Read", "Source/Code/ArduinoTemplateLibrary/Source/Code/ArduinoTemplateLibrary/AVR/UsartOutputStream.h: UsartOutputStream", "Source/Code/ArduinoTemplateLibrary/Source/Code/ArduinoTemplateLibrary/AVR/UsartInputStream.h: UsartInputStream"]}
{"id": "C106", "title": "Text between two boards", "statement": "TextWriter over UsartOutputStream on one board, UsartInputStream::Read on another, each with its own clock, 8 data bits, the same parity and rates near enough, interrupts served as in C105: if the buffer refused no character and the program only writes lines, then whoever splits what Read gets at the new-line text and reads each line as a value of the type written has, in order, the first of the values given to WriteLine (reals to their decimals), and all of them once everything has been sent, heard and read. No character is refused if each call is made only when getLength() and the text are within the buffer, of at most 256. Otherwise, of a text written while no handler runs, the buffer takes as many characters as it has room for, the rest is dropped, and nothing tells: with a buffer of 4, WriteLine(12345) and, when that has been sent, WriteLine(6) are read as the one line 1236. With a larger buffer than 256, getLength answers 0 when 256 characters wait.", "quantifier": "every sequence of Write, WriteLine and end-of-line calls with writable arguments, format (with characters that can be told apart), width of int, precision, schedule on both boards, pair of clocks and register settings with near enough rates, times of the frames, phase, buffer sizes, contents of the memory", "why_tests_cant": "needs two boards with their own clocks; whether a text fits depends on when the handler ran", "anchors": ["Source/Code/ArduinoTemplateLibrary/Source/Code/ArduinoTemplateLibrary/TextWriter.h: TextWriter", "Source/Code/ArduinoTemplateLibrary/Source/Code/ArduinoTemplateLibrary/AVR/UsartOutputStream.h: UsartOutputStream::Write, getLength", "Source/Code/ArduinoTemplateLibrary/Source/Code/ArduinoTemplateLibrary/AVR/UsartInputStream.h: UsartInputStream"]}
{"id": "C107", "title": "Distance sensor on the board's own USART", "statement": "URM37V32_Driver over UsartInputStream and UsartOutputStream, with both interrupt handlers: after one call of Read, and if the input buffer's size is divisible by four or no handler runs between the two halves of getLength, ReceiveResponse answers, in order, the frames of four of the bytes the handler stored, each with its checksum judged, and all of them as soon as less than a frame is left; an undisturbed call answers the next frame and takes four bytes, or with less than four tells whether there are any and takes none; commands go out as given. With a sensor that answers the distance commands it has heard, also over the levels of the line with clocks near enough and interrupts served as in C105, the answers are its measurements in order, none twice and none left out, and EndDistance delivers those without a byte of 255. A program that lets at most k commands wait for their answers, with room for k messages in both buffers, has every byte accepted and stored, over the line too. Fails: without a call of Read, which the driver does not make, nothing is ever received; and with a buffer of nine, one handler run inside getLength makes ReceiveResponse read three bytes that are not there, the frames stay shifted and no later distance is delivered; with room for three bytes to send the first command is cut short and never answered.", "quantifier": "every sequence of SendCommand and ReceiveResponse calls, schedule of the handlers (at most one run while a cursor is past the end) and of the characters, sizes of the buffers, measurements, contents of the memory; for the line every pair of clocks and register settings with near enough rates, times of the frames, phase", "why_tests_cant": "needs an interrupt between two loads of getLength, with the cursor at the end of the buffer", "anchors": ["Source/Code/ArduinoTemplateLibrary/Source/Code/ArduinoTemplateLibrary/URM37V32_Driver.h: SendCommand, ReceiveResponse", "Source/Code/ArduinoTemplateLibrary/Source/Code/ArduinoTemplateLibrary/AVR/UsartInputStream.h: UsartInputStream", "Source/Code/ArduinoTemplateLibrary/Source/Code/ArduinoTemplateLibrary/AVR/UsartOutputStream.h: UsartOutputStream", "Source/Code/ArduinoTemplateLibrary/Source/Code/ArduinoTemplateLibrary/RingBuffer.h: getLength"]}
{"id": "C108", "title": "Register calls while interrupt handlers make them too", "statement": "Calls of Port, DigitalOutputPin, DigitalInputPin, PowerReduction, Interrupt, Usart, UsartTransmit and UsartReceive change a register by loading and storing it, without switching interrupts off. Whatever calls of these classes the handlers make between any two instructions: the main program's calls end with the same answers as alone (unless a handler turns round the pin that EnablePullup asks about), and each bit has the value that the main program's last call, or some handler's call, gave it; inside a call it may also still have the value from before, and a bit of UCSRB that is on and set again is off for a moment. Close leaves the USART off although handlers may switch interrupts off meanwhile. Bits that only the handlers change have the value last given as long as no handler changes a register between its load and its store, for example if the two sides share only registers changed by one instruction. Fails otherwise: everything the handler did to that register is undone. So a pin written in a handler can fall back when the main program writes another pin of the same port, exactly if the compiler does not use one instruction for it; and the transmit stream's interrupt, switched off by its handler, can be on again after the main program has switched the receiver's.", "quantifier": "every program of calls, schedule of handlers and the calls they make, initial registers, choice of the registers that are changed by one instruction", "why_tests_cant": "needs an interrupt between the load and the store of one statement", "anchors": ["Source/Code/ArduinoTemplateLibrary/Source/Code/ArduinoTemplateLibrary/AVR/Port.h: Port::Write, SetDirection, EnablePullup", "Source/Code/ArduinoTemplateLibrary/Source/Code/ArduinoTemplateLibrary/Bit.h: Bit::Set", "Source/Code/ArduinoTemplateLibrary/Source/Code/ArduinoTemplateLibrary/AVR/Interrupt.h: Interrupt", "Source/Code/ArduinoTemplateLibrary/Source/Code/ArduinoTemplateLibrary/AVR/Usart.h: Usart::Open, Close", "Source/Code/ArduinoTemplateLibrary/Source/Code/ArduinoTemplateLibrary/AVR/PowerReduction.h: PowerReduction"]}
{"id": "C109", "title": "Sending and receiving on one USART share a register", "statement": "UsartOutputStream and UsartInputStream of one USART switch their interrupts on and off in the same register, UCSRB, by loading and storing it without switching interrupts off. A program may nevertheless call Write, Read and the switches of the transmitter and the receiver in any order, with both handlers between any two steps (each at most once while a cursor wraps, as in C04): both directions stay first in, first out; a Write is refused exactly if the buffer is full at its test, a character stored exactly if it has no error, the interrupt is on and there is room; something queued always finds the transmit interrupt on outside Write, and the handler alone sends it; the receive interrupt is on from the first Read on, before which nothing is stored; a switch has its effect; no other bit of UCSRB changes but the ninth data bit. The transmit interrupt may be on with nothing queued, after which the handler runs once more. Fails if a handler calls Write while the main program is in Read or a switch: the byte can stay in the buffer, never to be sent before the next Write.", "quantifier": "every sequence of calls and switches, schedule of both handlers, received characters, buffer sizes up to 65535, initial UCSRB with the receive interrupt off", "why_tests_cant": "needs a handler between the load and the store of one statement, in both directions at a time", "anchors": ["Source/Code/ArduinoTemplateLibrary/Source/Code/ArduinoTemplateLibrary/AVR/UsartOutputStream.h: UsartOutputStream::Write, OnAcceptDataInterrupt", "Source/Code/ArduinoTemplateLibrary/Source/Code/ArduinoTemplateLibrary/AVR/UsartInputStream.h: UsartInputStream::Read, OnIsCompleteInterrupt", "Source/Code/ArduinoTemplateLibrary/Source/Code/ArduinoTemplateLibrary/AVR/UsartTransmit.h: UsartTransmit::setEnableAcceptDataInterrupt, WriteInternal", "Source/Code/ArduinoTemplateLibrary/Source/Code/ArduinoTemplateLibrary/AVR/UsartReceive.h: UsartReceive::setEnableIsCompleteInterrupt", "Source/Code/ArduinoTemplateLibrary/Source/Code/ArduinoTemplateLibrary/Bit.h: Bit::Set"]}
{"id": "C110", "title": "A display at AVR pins while interrupt handlers run", "statement": "HD44780_Driver over six different AVR::DigitalOutputPin, whose Write loads and stores the port register without switching interrupts off. Used by the main program among any other calls, with any handlers between any two instructions that leave the six pins alone (they may write other pins of the same ports): the pins stay outputs, the lines go exactly through what the driver calls stand for, the display takes exactly their nibbles, and with the view's calls the screen shows the text. Used by the handlers only: it takes exactly the nibbles of WriteCommand and WriteData, although stores of the main program to the same ports may undo what they wrote; so two displays may share ports, one of the main program and one of the handlers. Fails for Initialize in a handler, which does not set RS: the first nibble can go to the data register. Fails for one display used by both: A and B can come out as D!.", "quantifier": "every choice of six pins, registers, program, schedule and calls of handlers, and whichever registers the compiler changes by one instruction", "why_tests_cant": "needs a handler between the load and the store of one statement; the display's view of the pins is not observable in a unit test", "anchors": ["Source/Code/ArduinoTemplateLibrary/Source/Code/ArduinoTemplateLibrary/HD44780_Driver.h: HD44780_Driver::WriteCommand, WriteData, Write4, Initialize", "Source/Code/ArduinoTemplateLibrary/Source/Code/ArduinoTemplateLibrary/AVR/DigitalOutputPin.h: DigitalOutputPin::Write", "Source/Code/ArduinoTemplateLibrary/Source/Code/ArduinoTemplateLibrary/AVR/Port.h: Port::Write, Port::SetDirection", "Source/Code/ArduinoTemplateLibrary/Source/Code/ArduinoTemplateLibrary/HD44780_View.h: HD44780_View"]}
{"id": "C111", "title": "Pins and shift registers at AVR pins while interrupt handlers run", "statement": "Any output pins of the AVR ports, whose Write loads and stores the port register without switching interrupts off. Their constructors make them outputs, with the level given or the one the register had. Written by the main program among any other calls, with any handlers between any two instructions that leave those pins alone (they may write other pins of the same ports): the pins go exactly through the levels the writes stand for, one write at a time. Written by the handlers only: a handler's writes are seen one after the other, and pins that every handler leaves where it found them keep that level between handlers; other pins may be set back by a store of the main program. So Serial3WireOutput over three different pins works from either side: the shift registers go through exactly the states of WriteReverse and show the values written, and a display on the chain takes exactly the nibbles of its calls; between handlers their data pin may change, but the outputs do not. Two chains may share ports, one of the main program and one of the handlers. Fails for one Serial3WireOutput used by both: the program writes 165, a handler in the middle 15, and the outputs end up showing neither.", "quantifier": "every choice of pins, registers, program, schedule and calls of handlers, whichever registers the compiler changes by one instruction, every chain and every sequence of values", "why_tests_cant": "The interrupt has to fall between the load and the store of one pin write, and the effect depends on which of the pins share a port; a test sees a few schedules.", "anchors": ["Source/Code/ArduinoTemplateLibrary/Source/Code/ArduinoTemplateLibrary/AVR/DigitalOutputPin.h:43-63", "Source/Code/ArduinoTemplateLibrary/Source/Code/ArduinoTemplateLibrary/Serial3WireOutput.h:36-96"]}
