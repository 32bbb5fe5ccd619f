# Formal model of embedded-general-support-library (Rocq / Coq 8.16.1)

## Layout

All files live in `rocq/theories` (logical prefix `Verif`), flat, one style (Coq standard library lists and `Z`; Flocq
4.1.0 for binary32):

| prefix | content |
|---|---|
| `Base.v` | outcome type `res` (`Ok` / `UB` / `Fuel`), machine-integer helpers, bounds-checked buffers |
| `M_*.v` | the model of the code, definition by definition, each citing file and lines, with its simplifications |
| `S_*.v` | small specifications: vocabulary of the statements, written without the code's helpers |
| `L_*.v` | lemmas and proofs |
| `P_*.v` | the property theorems: statement, proof, `Print Assumptions`, and an `Example` with concrete data that meets the hypotheses |

`seeded/LOG.jsonl` records the wrong programs tried against the theorems: the model definition edited, the edit, the
claim it breaks, the theorems that failed, and the theorems that were tightened because of it.

## Modelling conventions

* **Undefined behaviour is an outcome.** Every function that indexes memory, does signed `int` arithmetic or shifts
  returns `res A`: `Ok a`, `UB` (out-of-bounds access, signed overflow, bad shift count) or `Fuel`
  (loop/recursion fuel exhausted). Loops that are not structurally bounded take explicit fuel. Termination theorems say
  that for all fuel above a bound the result is `Ok`; non-termination theorems say that for all fuel it is `Fuel`.
* Bytes and chars are `Z` in 0..255; buffers are `list Z`; pointers are offsets into a buffer; `int` is `Z` with a
  checked range; unsigned types wrap with explicit `mod 2^k`. `size_t` is unbounded `Z` unless a comment says otherwise.
* Mutation returns the new value. Observable effects on hardware are explicit traces (bytes on a wire, driver calls).
* The outside world (clock, UART, SPI slave, I2C bus, ADC driver, iconv, FreeType) is an arbitrary function
  argument; theorems quantify over it. Contracts of it that a theorem needs are hypotheses of that theorem.
* **Statements are exact.** Where the code does not do what one would expect, the property says what it does and under
  which exact condition; the tempting but false statement appears as a `…_refuted` theorem with a witness.
* Theorems on shapes take coordinates, sides and radii up to 2^28 in absolute value, those on texts up to 10^9, so
  that the `int` sums of the code cannot overflow; this is part of the properties' quantifier. C83 and C84 lift this
  and give the exact conditions.
* The signedness of `char` is a parameter (`sg`) where it matters; where a platform fixes it, a comment says so. Glyph
  offsets, cast to `char` and stored as `int8_t`, are the signed byte with the same bits.

## Properties

Status of every property is in `MANIFEST.json`; the English statements are in `properties.jsonl`. For each property: what is modelled, how it is proved, and the theorems (file in brackets).

**C01 Sub-views are exact slices and never leave their parent** (proved). *Modelled:* `M_MemoryView`: a view is (element size, address, element count) over a flat byte memory; every accessor is a function of those three numbers, element access reads the memory with a bounds check. *Proved:* `subspan`/`first`/`last` are compared with list slicing (`firstn`/`skipn`) of the elements of the parent, for all offsets and counts and every width of `size_t`; arithmetic on offsets. *Theorems:* `C01_subspan`, `C01_first`, `C01_last` [P_MemoryView].

**C02 Byte views, iterators and element access agree with the view** (proved). *Modelled:* `M_MemoryView`: a view is (element size, address, element count) over a flat byte memory; every accessor is a function of those three numbers, element access reads the memory with a bounds check. *Proved:* Elements are regroupings of the byte range (`S_MemoryView`); writing a byte through `as_writable_bytes` is shown to change exactly that byte of exactly that element. Composition and splitting by arithmetic. *Theorems:* `C02_as_bytes`, `C02_write_through_bytes`, `C02_access`, `C02_compose`, `C02_split`, `C02_range`, `C02_begin_end`, `C02_made` [P_MemoryView].

**C03 changeEndianess reverses the bytes of a 16- or 32-bit word and is an involution** (proved). *Modelled:* `M_Endian`: the shift/mask expressions on `Z` with the wrap-around of the C types. *Proved:* Masks and shifts are turned into div/mod arithmetic (`L_Endian`), then compared with the list of bytes of the word; involution follows from reversing twice. No enumeration of words. *Theorems:* `C03_reverse16`, `C03_reverse32`, `C03_involution16`, `C03_involution32`, `C03_all_words` [P_Endian].

**C04 changeEndianess16x2 swaps the bytes inside each half-word in place; changeEndianessToFloat has the byte-reversed bit pattern** (proved). *Modelled:* `M_Endian`: the shift/mask expressions on `Z` with the wrap-around of the C types. Floats are Flocq `binary_float 24 128` and their bit patterns. *Proved:* As C03, per half-word; float pattern through `bits_of_b32`/`b32_of_bits`. *Theorems:* `C04_halves`, `C04_halves_bytes`, `C04_float_pattern`, `C04_float_roundtrip` [P_Endian].

**C05 PersistentStorage behaves like a finite map keyed by (name, object size)** (proved). *Modelled:* `M_Storage`: constructor, `set`, `get`, `getIdx`, header layout and name comparison, byte by byte over the buffer; the scan of `getIdx` takes fuel. *Proved:* Representation invariant "the buffer is the encoding of a record list followed by a free tail" (`L_Storage`), simulation against a reference map (`S_Storage`, written over histories), induction over arbitrary histories of set/get/reopen. *Theorems:* `C05_finite_map` [P_Storage].

**C06 set fails exactly when a new record does not fit, and a failed set changes nothing** (proved). *Modelled:* `M_Storage`: constructor, `set`, `get`, `getIdx`, header layout and name comparison, byte by byte over the buffer; the scan of `getIdx` takes fuel. *Proved:* Space accounting over the record list of the same invariant. *Theorems:* `C06_set_fails_iff_full`, `C06_used_space`, `C06_overwrite_free` [P_Storage].

**C07 Reopening a storage region without initialisation recovers exactly the stored objects** (proved). *Modelled:* `M_Storage`: constructor, `set`, `get`, `getIdx`, header layout and name comparison, byte by byte over the buffer; the scan of `getIdx` takes fuel. *Proved:* The constructor re-scans the encoding; shown to recover the same record list. *Theorems:* `C07_reopen_identity` [P_Storage].

**C08 Opening arbitrary (corrupt) bytes is safe unless the record chain ends in a one-byte record** (proved). *Modelled:* `M_Storage`: constructor, `set`, `get`, `getIdx`, header layout and name comparison, byte by byte over the buffer; the scan of `getIdx` takes fuel. *Proved:* A weaker chain invariant that holds for whatever bytes are opened; both exclusions are shown necessary by computed witnesses (`_refuted`). `C08_exact`: without room for a record every set only overwrites, which keeps the chain; with room, a new record (long names never match an old one) turns the last size field into 1793 or 257, and a lookup then reads outside (a name that no earlier record of that size has exists by counting) or stays at a zero size field for ever. *Theorems:* `C08_open_any_bytes`, `C08_refuted_hang`, `C08_refuted_out_of_bounds`, `C08_exact` [P_Storage]. *Note:* the two _refuted theorems show that the stated exclusion is necessary

**C09 A crash inside set never damages other stored objects** (proved). *Modelled:* `M_Storage.set` additionally as the list of byte stores it makes, in order. *Proved:* All prefixes of the store list (ordered memory) and all subsets of the pending bytes (unordered memory) are re-opened; the old record list is shown to be recovered for all other keys. `C09_progress` excludes emptiness of the history relation. `C09_any_names` (`L_Storage5`) repeats the history theorem for names of any length, with the reference map of C10. *Theorems:* `C09_any_subset`, `C09_ordered_histories`, `C09_progress`, `C09_any_names` [P_Storage].

**C10 A name can be read back iff it has at most four bytes** (proved). *Modelled:* `M_Storage`: constructor, `set`, `get`, `getIdx`, header layout and name comparison, byte by byte over the buffer; the scan of `getIdx` takes fuel. *Proved:* Comparison of an at most four byte stored name with an arbitrary key; both directions. `C10_any_names` (`L_Storage5`): simulation between the record list, which may now hold several records of one name and size, and a map in which the first one counts. *Theorems:* `C10_readback_iff_short`, `C10_long_never_found`, `C10_long_set`, `C10_any_names` [P_Storage].

**C11 Records of 65536 bytes or more break the storage** (proved). *Modelled:* `M_Storage`: constructor, `set`, `get`, `getIdx`, header layout and name comparison, byte by byte over the buffer; the scan of `getIdx` takes fuel. The 16-bit size field is truncated explicitly. *Proved:* The exact effect of a set of 65536 bytes or more on the record list and on all later lookups. *Theorems:* `C11_big_never_found`, `C11_big_set` [P_Storage].

**C12 BufferedOut appends text, clipped to the buffer, and never disturbs what is already there** (proved). *Modelled:* `M_BufferedOut`: the object as (capacity, contents, position, width, precision, fill), every insertion with bounds-checked writes; `std::to_chars` by its contract (decimal text or `value_too_large`). *Proved:* Every insertion appends a text that depends only on the value and the formatting state, cut to the room left; exact step equations (`L_BufferedOut`), then runs of insertions. *Theorems:* `C12_text`, `C12_text_determined`, `C12_prefix_kept` [P_BufferedOut].

**C13 Exactly two insertions can write outside the buffer** (proved). *Modelled:* `M_BufferedOut`: the object as (capacity, contents, position, width, precision, fill), every insertion with bounds-checked writes; `std::to_chars` by its contract (decimal text or `value_too_large`). *Proved:* The model returns `UB` for a write outside; both directions of the iff by case analysis on every insertion. *Theorems:* `C13_overrun_iff`, `C13_otherwise_inside`, `C13_cstring_iff`, `C13_float_iff` [P_BufferedOut].

**C14 Integer width: right-aligned padding, but digits beyond the width are lost** (proved). *Modelled:* `M_BufferedOut`: the object as (capacity, contents, position, width, precision, fill), every insertion with bounds-checked writes; `std::to_chars` by its contract (decimal text or `value_too_large`). *Proved:* Exact equation for a number with a pending width; the refuted statement is the "obvious" one that digits survive. *Theorems:* `C14_width`, `C14_width_keeps_digits_refuted` [P_BufferedOut].

**C15 Integers are printed in canonical decimal** (proved). *Modelled:* `M_BufferedOut`: the object as (capacity, contents, position, width, precision, fill), every insertion with bounds-checked writes; `std::to_chars` by its contract (decimal text or `value_too_large`). *Proved:* The digit loop produces the canonical numeral and canonical numerals are unique (`L_Decimal`). *Theorems:* `C15_canonical`, `C15_text_unique` [P_BufferedOut].

**C16 Float formatting: truncated integer part, digits within 2^-24, sign lost between -1 and 0, stale bytes when it does not fit** (proved). *Modelled:* `M_BufferedOut`: the object as (capacity, contents, position, width, precision, fill), every insertion with bounds-checked writes; `std::to_chars` by its contract (decimal text or `value_too_large`). `toChars(float)` with IEEE binary32 arithmetic (Flocq, round to nearest even). *Proved:* Real-number invariant `0 <= f < 1` for the fraction, exactness of the multiply/subtract steps, rounding bound on the first fraction (`L_Float`). *Theorems:* `C16_float`, `C16_no_minus_sign`, `C16_no_room`, `C16_all_or_nothing_refuted` [P_BufferedOut].

**C17 Formatting state: width is one-shot, precision and fill persist until clear** (proved). *Modelled:* `M_BufferedOut`: the object as (capacity, contents, position, width, precision, fill), every insertion with bounds-checked writes; `std::to_chars` by its contract (decimal text or `value_too_large`). *Proved:* Step equation for the formatting state of every insertion, then runs. *Theorems:* `C17_step`, `C17_persist`, `C17_manipulators_print_nothing`, `C17_clear` [P_BufferedOut].

**C18 data() agrees with the text iff the text is shorter than 65536 bytes** (proved). *Modelled:* `M_BufferedOut`: the object as (capacity, contents, position, width, precision, fill), every insertion with bounds-checked writes; `std::to_chars` by its contract (decimal text or `value_too_large`). *Proved:* 16-bit truncation of the length in `data()`; reachability of long texts shown. *Theorems:* `C18_data`, `C18_reachable` [P_BufferedOut].

**C19 SerialOut delivers each line exactly once, in order, and starts the next one clean** (proved). *Modelled:* `M_SerialOut`: SerialOut on top of M_BufferedOut, `flush` as one `Send` event with the 16-bit length. *Proved:* Induction over lists of lines; the events of a run are the lines in order. *Theorems:* `C19_line`, `C19_end`, `C19_lines` [P_SerialOut].

**C20 Rectangle corners, translation and point/size arithmetic** (proved). *Modelled:* `M_Geometry`: Point/Size/Rect operators and the rotation functions with checked `int` arithmetic (`UB` on overflow). *Proved:* Arithmetic; definedness stated as range conditions. *Theorems:* `C20_corners`, `C20_corners_defined`, `C20_corners_refuted`, `C20_translate`, `C20_arith`, `C20_assoc`, `C20_sub_self` [P_Geometry].

**C21 Rotation maps the logical canvas one-to-one onto the frame buffer** (proved). *Modelled:* `M_Geometry`: Point/Size/Rect operators and the rotation functions with checked `int` arithmetic (`UB` on overflow). *Proved:* Each rotation is compared with the geometric map of `S_Graphics`; bijectivity between the logical canvas and the frame buffer by an explicit inverse. For rectangles the transform is defined exactly if the `int` sums it forms are in range (`turn_room`), which holds on the canvas and within 2^28. *Theorems:* `C21_transform`, `C21_bijection`, `C21_rect`, `C21_rect_inside`, `C21_rect_anywhere`, `C21_setRotation` [P_Geometry]. *Note:* C21_rect_anywhere has the exact condition; C21_rect and C21_rect_inside say where it holds

**C22 drawPixel changes exactly one pixel (depths 1, 4, 8, 16, 24)** (proved). *Modelled:* `M_FrameBuffer`: image as bytes for every colour depth, `drawPixel`, `clear`, `setColor`, with bounds-checked accesses. *Proved:* Bit-level extensionality: every bit of the image after the call, for every depth (`L_FrameBuffer`). Coordinates outside (`C22_anywhere`): `lands` in `S_Outside` says which pixel they reach; by cases on the depth (`L_Outside`). *Theorems:* `C22_drawPixel`, `C22_anywhere`, `C22_drawPixel2` [P_FrameBuffer].

**C23 clear paints every pixel and setColor selects the masked colour** (proved). *Modelled:* `M_FrameBuffer`: image as bytes for every colour depth, `drawPixel`, `clear`, `setColor`, with bounds-checked accesses. *Proved:* As C22, for all pixels; `C23_clear_determined` says the description fixes the image. *Theorems:* `C23_clear`, `C23_clear_determined`, `C23_setColor`, `C23_even_colour` [P_FrameBuffer].

**C24 Depth 2 draws correctly in no column** (proved). *Modelled:* `M_FrameBuffer`: image as bytes for every colour depth, `drawPixel`, `clear`, `setColor`, with bounds-checked accesses. *Proved:* Depth 2: exact byte effect per column class; never the intended one. *Theorems:* `C24_left_columns`, `C24_right_columns`, `C24_never_intended`, `C24_constructor` [P_FrameBuffer].

**C25 Frame-buffer geometry** (proved). *Modelled:* `M_FrameBuffer`: image as bytes for every colour depth, `drawPixel`, `clear`, `setColor`, with bounds-checked accesses. *Proved:* Arithmetic on widths, the exact set of sizes a compiler accepts by cases on the depth, and the partition of the image bits into pixels. *Theorems:* `C25_geometry`, `C25_accepted`, `C25_partition` [P_FrameBuffer].

**C26 Canvas drawing never leaves the frame buffer** (proved). *Modelled:* `M_Canvas`: every drawing function as the list of frame-buffer pixel calls it makes, with checked `int` arithmetic; loops take fuel that is shown sufficient. *Proved:* Every listed point passes the visibility test; painting a list of visible points is defined. *Theorems:* `C26_clipping`, `C26_pixel`, `C26_operations` [P_Canvas]. *Note:* drawing the result of each operation is covered by the paints theorems of C27-C32

**C27 drawLine draws a connected digital line within half a pixel, including both endpoints** (proved). *Modelled:* `M_Canvas`: every drawing function as the list of frame-buffer pixel calls it makes, with checked `int` arithmetic; loops take fuel that is shown sufficient. *Proved:* Closed form of the Bresenham error term; the pixel of every step is the rounding of the ideal line, ties broken in the drawing direction; distance, connectivity and endpoints follow (`L_Canvas`). *Theorems:* `C27_line`, `C27_pixels`, `C27_one_per_step` [P_Canvas].

**C28 drawLine is independent of the endpoint order** (proved). *Modelled:* `M_Canvas`: every drawing function as the list of frame-buffer pixel calls it makes, with checked `int` arithmetic; loops take fuel that is shown sufficient. *Proved:* Equality of the painted sets for both endpoint orders, from the closed form. *Theorems:* `C28_symmetric` [P_Canvas].

**C29 drawRectangle draws exactly the border** (proved). *Modelled:* `M_Canvas`: every drawing function as the list of frame-buffer pixel calls it makes, with checked `int` arithmetic; loops take fuel that is shown sufficient. *Proved:* Exact point set; degenerate sizes separately. *Theorems:* `C29_border`, `C29_any_size`, `C29_empty_rectangle` [P_Canvas].

**C30 drawFilledRectangle paints exactly the visible part of the rectangle, each pixel once** (proved). *Modelled:* `M_Canvas`: every drawing function as the list of frame-buffer pixel calls it makes, with checked `int` arithmetic; loops take fuel that is shown sufficient. *Proved:* Exact point set and `NoDup`. *Theorems:* `C30_filled` [P_Canvas].

**C31 drawCircle draws exactly the ring of pixels closest to the ideal circle** (proved). *Modelled:* `M_Canvas`: every drawing function as the list of frame-buffer pixel calls it makes, with checked `int` arithmetic; loops take fuel that is shown sufficient. *Proved:* Midpoint invariant: each visited point of the octant is the pixel of its row/column nearest the circle; exact ring set (`L_Circle`). *Theorems:* `C31_circle`, `C31_ring`, `C31_flat` [P_Canvas].

**C32 A filled circle is the outline with every row filled, without holes** (proved). *Modelled:* `M_Canvas`: every drawing function as the list of frame-buffer pixel calls it makes, with checked `int` arithmetic; loops take fuel that is shown sufficient. *Proved:* Row spans of the ring; each row is an interval without holes. *Theorems:* `C32_filled`, `C32_rows` [P_Canvas].

**C33 Shapes rotate with the canvas** (proved). *Modelled:* `M_Canvas`: every drawing function as the list of frame-buffer pixel calls it makes, with checked `int` arithmetic; loops take fuel that is shown sufficient. *Proved:* The painted set in the rotated canvas is the rotation of the painted set; lines without ties rotate too, by uniqueness of the nearest pixel; a line with a tie paints, at that step, another pixel on a canvas turned by half a turn (`L_LineTies`); negative radius refuted by a witness. *Theorems:* `C33_rotation`, `C33_line`, `C33_glyph`, `C33_wherever`, `C33_line_wherever`, `C33_line_exact`, `C33_line_refuted`, `C33_negative_radius_refuted` [P_Anywhere, P_Canvas, P_Font]. *Note:* glyph part in P_Font.v, the part for all coordinates and the exact condition for lines in P_Anywhere.v

**C34 drawCharAt paints exactly the set bits of the glyph bitmap** (proved). *Modelled:* `M_Font`: `EmbeddedFont` (getBitmap, getTextBounds), `drawCharAt`, `drawStringAt` over arbitrary font tables; the glyph table is a list read with bounds checks. Shipped tables: `M_FontData` (generated from the header text). *Proved:* Exact set of painted pixels from the bits of the glyph, and the exact condition for an out-of-bounds read. *Theorems:* `C34_glyph`, `C34_reads` [P_Font]. *Note:* bit-exact for every font, symbol, position, rotation; out of bounds read iff the data is not inside the bitmap

**C35 drawStringAt places each glyph after the advances of the previous ones** (proved). *Modelled:* `M_Font`: `EmbeddedFont` (getBitmap, getTextBounds), `drawCharAt`, `drawStringAt` over arbitrary font tables; the glyph table is a list read with bounds checks. Shipped tables: `M_FontData` (generated from the header text). *Proved:* Induction over the text; pen positions are partial sums of advances. *Theorems:* `C35_text`, `C35_concatenation` [P_Font].

**C36 Glyph lookup** (proved). *Modelled:* `M_Font`: `EmbeddedFont` (getBitmap, getTextBounds), `drawCharAt`, `drawStringAt` over arbitrary font tables; the glyph table is a list read with bounds checks. Shipped tables: `M_FontData` (generated from the header text). *Proved:* Case analysis on the code and the first/last character; the result is stated by `entry_view` (`S_Font`), which says what a view of table entry k is without using the model's lookup. *Theorems:* `C36_lookup`, `C36_first`, `C36_converter` [P_Font].

**C37 The glyph bitmap view: last glyph reads past the glyph table** (proved). *Modelled:* `M_Font`: `EmbeddedFont` (getBitmap, getTextBounds), `drawCharAt`, `drawStringAt` over arbitrary font tables; the glyph table is a list read with bounds checks. Shipped tables: `M_FontData` (generated from the header text). *Proved:* For the last entry the view length is computed from the (absent) following entry. *Theorems:* `C37_last_entry`, `C37_view` [P_Font].

**C38 Text bounds** (proved). *Modelled:* `M_Font`: `EmbeddedFont` (getBitmap, getTextBounds), `drawCharAt`, `drawStringAt` over arbitrary font tables; the glyph table is a list read with bounds checks. Shipped tables: `M_FontData` (generated from the header text). *Proved:* Induction over the text; containment of every painted pixel in the bounds, exact width; refuted without the stated condition. *Theorems:* `C38_bounds`, `C38_empty`, `C38_inside`, `C38_width`, `C38_inside_refuted` [P_Font].

**C39 The shipped font is well-formed** (proved). *Modelled:* `M_FontData`: the tables of FreeSans15pt7b.h. *Proved:* Computation over the finite table (the statement is about that table) lifted to all texts by C34-C38. *Theorems:* `C39_layout`, `C39_codes`, `C39_text` [P_Font].

**C40 BitStream packs bits MSB-first** (proved). *Modelled:* `M_Packing`: BitStream, packing loop, table, offsets, binary output; FreeType rendering and iconv are arbitrary functions. *Proved:* Invariant on the partially filled byte; `packed` describes all output bits. *Theorems:* `C40_packed`, `C40_pieces`, `C40_determined` [P_Packing]. *Note:* Bit stream with its 8-bit buffer; [packed] describes every bit of the output and determines it (C40_determined).

**C41 A converted glyph is drawn as rendered** (proved). *Modelled:* `M_Packing`: BitStream, packing loop, table, offsets, binary output; FreeType rendering and iconv are arbitrary functions. *Proved:* Composition of C40, C43, C36 and C34; the packing loop for bitmaps of any size (`packGlyph_any`), of which the storable sizes are a special case. *Theorems:* `C41_data`, `C41_drawn`, `C41_any_size` [P_Packing]. *Note:* End to end through BitStream, table, offsets, getBitmap and drawCharAt; FreeType and iconv are arbitrary functions. The last entry is excluded because of C37. C41_any_size: bitmaps too large for a descriptor.

**C42 Converter table order matches glyph lookup** (proved). *Modelled:* `M_Packing`: BitStream, packing loop, table, offsets, binary output; FreeType rendering and iconv are arbitrary functions. *Proved:* The sequence of codes in closed form; lookup of the k-th code gives entry k. *Theorems:* `C42_codes`, `C42_lookup` [P_Packing].

**C43 Converter bitmap offsets are the running byte totals** (proved). *Modelled:* `M_Packing`: BitStream, packing loop, table, offsets, binary output; FreeType rendering and iconv are arbitrary functions. *Proved:* Running sums with the 16-bit wrap explicit. *Theorems:* `C43_offsets`, `C43_in_place`, `C43_glyph_file` [P_Packing].

**C44 The generated bitmap array text denotes exactly the bytes** (proved). *Modelled:* `M_FontText`: the text writers of main.cpp on top of M_BufferedOut. *Proved:* Induction over the bytes with the line buffer state; a small reader (`S_FontText`) gets the bytes back. *Theorems:* `C44_array`, `C44_head`, `C44_read_back`, `C44_limit` [P_FontText].

**C45 EncodingConverter never overruns its input buffer; single-byte conversions are independent** (proved). *Modelled:* `M_Packing`: EncodingConverter with iconv as an arbitrary function that obeys its pointer contract. *Proved:* Case analysis; stateful encodings refute independence. *Theorems:* `C45_step`, `C45_inside`, `C45_single`, `C45_independent_refuted` [P_Packing].

**C46 ESP32 ReceiveUntil respects the buffer and stops at the first end byte** (proved). *Modelled:* `M_UartEsp`: receive loops over an arbitrary clock and byte source; fuel for the loops. *Proved:* Loop invariant: received bytes so far; exact stopping condition; equivalence for non-termination. *Theorems:* `C46_until`, `C46_running_iff`, `C46_ends`, `C46_no_deadline`, `C46_waits` [P_Uart].

**C47 ESP32 ReceiveBetween returns nothing or a packet starting with the start byte** (proved). *Modelled:* `M_UartEsp`. *Proved:* Search phase + C46; termination iff a start byte or a silent round occurs, also round by round (`C47_running_iff`); the wait passed to each request is recorded by the model. *Theorems:* `C47_between`, `C47_ends`, `C47_small`, `C47_search_ignores_clock`, `C47_wrap`, `C47_running_iff`, `C47_waits` [P_Uart].

**C48 Arduino Receive/ReceiveUntil/ReceiveBetween buffer discipline** (proved). *Modelled:* `M_UartArduino`: Receive / readBytesUntil / ReceiveBetween over arbitrary Stream behaviour. *Proved:* Loop invariants as C46. *Theorems:* `C48_receive`, `C48_until`, `C48_end_received_refuted`, `C48_between`, `C48_too_small`, `C48_between_too_small`, `C48_send`, `C48_receive_running_iff`, `C48_until_ends`, `C48_between_running_iff` [P_Uart].

**C49 Millisecond deadlines fail when the 32-bit tick counter wraps** (proved). *Modelled:* The same loops. *Proved:* 32-bit wrap of the deadline; both directions. *Theorems:* `C49_esp_wrap`, `C49_esp_not_early`, `C49_arduino_wrap`, `C49_arduino_not_early`, `C49_light_wrap`, `C56_light_not_early` [P_Misc, P_Uart].

**C50 Arduino SPI transfer moves exactly the requested bytes in order** (proved). *Modelled:* `M_SpiArduino`: read / write / readAndWrite and transfer; the other side is an arbitrary function of the history. *Proved:* Induction on the four-byte groups, rest by cases. *Theorems:* `C50_send`, `C50_receive`, `C50_exchange`, `C50_nothing` [P_Spi].

**C51 ESP32 SPI transfer splits into chunks without loss** (proved). *Modelled:* `M_SpiEsp`: the chunk loop; the driver is an arbitrary function of the history, which may also change the receive length in the transaction structure all pieces share. *Proved:* Induction on the number of pieces; for sending in full duplex the lengths left behind are followed from piece to piece. *Theorems:* `C51_transfer`, `C51_pieces`, `C51_sent`, `C51_lengths`, `C51_full_duplex_send`, `C51_no_init`, `C51_no_init_rejected`, `C51_receive_only` [P_Spi].

**C52 ESP32 SpiBus::release does not release** (proved). *Modelled:* `M_SpiEsp`: init, release, destructor as traces of driver calls. *Proved:* Case analysis and induction on the number of releases. *Theorems:* `C52_removed`, `C52_release`, `C52_unused`, `C52_life`, `C52_init`, `C52_frequency_refuted` [P_Spi].

**C53 ChipSelector brackets its scope** (proved). *Modelled:* `M_Gpio`: a tiny language of scopes and pin writes; log of pin writes. *Proved:* Structural induction on programs. *Theorems:* `C53_scope`, `C53_after`, `C53_nested_refuted`, `C53_level`, `C53_check` [P_Misc].

**C54 I2C transfers are all-or-nothing at the API** (proved). *Modelled:* `M_I2C`: both platforms over arbitrary bus answers. *Proved:* Case analysis, induction on the number of bytes read. *Theorems:* `C54_send`, `C54_receive`, `C54_long_request`, `C54_both`, `C54_esp` [P_Misc].

**C55 Analog pin mapping and reading** (proved). *Modelled:* `M_Analog`: channel search, one reading as a trace of driver calls. *Proved:* Induction over the table rows; histories. *Theorems:* `C55_mapping`, `C55_read`, `C55_never_released`, `C55_second_read_fails` [P_Misc].

**C56 Delays and sleeps** (proved). *Modelled:* `M_Delays`: delays and sleeps over an arbitrary clock. *Proved:* Loop unrolled by rounds; exact wake-up argument. The busy wait is split into the wait for the wrap-around and the wait for the deadline. *Theorems:* `C56_delay`, `C56_deep`, `C56_light`, `C56_light_not_early`, `C56_wakeup`, `C56_oversleep_refuted`, `C56_microseconds`, `C56_microseconds_wrap`, `C56_millisecond_ticks`, `C56_elapsed`, `C56_elapsed_us`, `C56_elapsed_us_arduino` [P_Misc].

**C57 ESP32 UART byte counts cannot be trusted on driver errors** (proved). *Modelled:* `M_UartEsp`: results of the driver truncated to 16 bits. *Proved:* Arithmetic. *Theorems:* `C57_counts`, `C57_bounded_refuted`, `C57_wait` [P_Uart].

**C58 Generated glyph table text** (proved). *Modelled:* `M_FontText`: the text writers of main.cpp on top of M_BufferedOut. *Proved:* Induction over the glyphs; line layout, offsets and struct text. *Theorems:* `C58_table`, `C58_lines`, `C58_offset`, `C58_struct`, `C58_file` [P_FontText].

**C59 The shipped font header is the converter's output for its tables** (proved). *Modelled:* `M_FontFile` (the header file as text) and `M_FontText`. *Proved:* Kernel computation: the model's output for the tables equals the file text (one closed statement about the shipped file). *Theorems:* `C59_header`, `C59_binary`, `C59_bytes` [P_FontText]. *Note:* A closed computation about the shipped file, checked by the kernel; the file text is in M_FontFile.v.

**C60 Pin set-up asks for exactly the requested configuration** (proved). *Modelled:* `M_Gpio`: pin set-up. *Proved:* Bit extensionality of the mask; cases. *Theorems:* `C60_esp`, `C60_arduino` [P_Misc].

**C61 UART set-up is done once** (proved). *Modelled:* `M_UartInit`. *Proved:* Cases on the first failing call. *Theorems:* `C61_init`, `C61_again` [P_Misc].

**C62 I2C probe byte** (proved). *Modelled:* `M_I2C.testAddressByte`. *Proved:* Arithmetic. *Theorems:* `C62_probe` [P_Misc].

**C63 The generated header, read as C, declares the converted font** (proved). *Modelled:* `M_FontText`: the text writers of main.cpp on top of M_BufferedOut. The reader (`S_Header`: tokens, initialisers, numbers, declarations) is written from the C language and the struct layout, and is executable. *Proved:* The lexer is followed through the text described by C44/C58, piece by piece; the initialiser parser through the token lists by induction over bytes and glyphs (`L_Header`). *Theorems:* `C63_header`, `C63_name_refuted`, `C63_shipped` [P_Header]. *Note:* C63_name_refuted shows the condition on the name is needed; C63_shipped is a closed computation about the shipped file.

**C64 A text in a converted font is drawn as rendered** (proved). *Modelled:* Composition of `M_Packing`, `M_FontText`, `S_Header`, `M_Font`. *Proved:* C63 + the stored-glyph lemma behind C41, for all characters of a text, + C35 (`L_ConvertText`). *Theorems:* `C64_text` [P_Header]. *Note:* End to end; the last entry of the table is excluded because of C37.

**C65 Written PBM pictures are read back** (proved). *Modelled:* `M_Pbm`: the two writers, the reader and the comparison of tests/PBMHelper.cpp over files as byte lists; input streams with their end-of-file and failure bits, `>>` for words and ints, `getline`. Opening and write errors are left out. *Proved:* The rows written are described as text lines (`rows`, induction over rows and bytes), their pixels are the bits of the data, and C66 gives what the reader makes of them. *Theorems:* `C65_text`, `C65_binary`, `C65_whole_bytes`, `C65_no_pixels`, `C65_text_refuted` [P_Pbm]. *Note:* C65_text_refuted: a picture that is written whole and whose reading is undefined.

**C66 What readPBM accepts and returns** (proved). *Modelled:* As C65. `S_Pbm` says what a header, a line, a pixel and an overrun are, without the stream. *Proved:* Invariant of the character loop: the image holds exactly the pixels met so far (`putChars_ok`), full or not (`putChars_full`); induction over the lines decides between overrun and result (`putLines_spec`). The header is characterised both ways: `readPBM_read_as` reads every text that `S_Pbm` calls a header, and `readPBM_other`, by inverting the three extractions, finds such a text in every file that is not rejected. *Theorems:* `C66_text_picture`, `C66_binary_picture`, `C66_padded_rows`, `C66_rejects`, `C66_sizes`, `C66_any_file`, `C66_compare` [P_Pbm]. *Note:* Test support code; the C++ streams are modelled as far as the helper uses them.

**C67 The converter's command line** (proved). *Modelled:* `M_Options`: glibc `getopt` for the option string (bundles, joined and separate arguments, operands, `--`), `std::stoi`, the constructor of FontConverterConfig, and `main` up to the conversion loop. The output directory is in C73 and C74. *Proved:* `S_Options` describes command lines as pieces; `getopts_line` shows that scanning yields the settings of the pieces, `command_line_exists` that every argument list has such pieces, `setOptions_events` folds the settings, `stoi_spec` characterises the numbers (`L_Options`). *Theorems:* `C67_command_line`, `C67_total` [P_Options]. *Note:* getopt is modelled as glibc's; its messages and POSIXLY_CORRECT are left out. The output directory is covered by C73 and C74.

**C68 The generated font's name** (proved). *Modelled:* As C67, with `path::filename` and `replace_extension` on byte strings. *Proved:* `stem_spec`: the computed stem is the only one that meets the description; identifiers by cases on the pieces of the name; the header by C67 and C63. *Theorems:* `C68_name`, `C68_identifier`, `C68_header` [P_Options]. *Note:* C68_header composes C67 with C63.

**C69 Setting up, probing and resetting the I2C bus** (proved). *Modelled:* `M_I2CBus` (command link, configuration and installation calls with arbitrary answers) and the resets of `M_I2C`. `S_I2CBus` has the bus with devices, the rules for command links and the transmissions on the wire. *Proved:* Computation of the calls; the address byte by C62. *Theorems:* `C69_probe`, `C69_link`, `C69_init`, `C69_reset` [P_I2CBus]. *Note:* The bus with its devices is an assumption about the driver (on_bus).

**C70 The drawings of the tests are the reference pictures, whatever the memory held before** (proved). *Modelled:* `M_Scenes`: the drawing functions, `checkBuffer` and the seven tests of tests/MonochromeFrameBufferTest.cpp; `M_Pictures`: the reference files, transcribed by script (the large ones with four pixels to a hexadecimal digit). *Proved:* `redraw_picture`: after clearing, the image is the set of visible plotted points, whatever it was before (C23, `draw_plots`); the set is kept in a binary trie and compared with the pixels of the file by `vm_compute`; C66 gives what is read. *Theorems:* `C70_rotations`, `C70_lines` [P_Scenes]. *Note:* The scenes and files are concrete; the proof covers every initial memory content. It also checks the model against pictures recorded by the authors.

**C71 A saved frame buffer shows what was drawn** (proved). *Modelled:* Composition of `M_Pbm`, `M_FrameBuffer`, `M_Canvas`, `M_Scenes`. *Proved:* The rows of the file are the rows of the image (`rows_nth`), their characters its bits (`img_bit_bits`); the painted set by the definition of `paints`; comparison by C65 and C66 (`L_Saved`). *Theorems:* `C71_text`, `C71_drawn`, `C71_check`, `C71_compare` [P_Saved].

**C72 Scaling, division, matrix products and conversion of integer geometry are exact** (proved). *Modelled:* `M_Geometry` (scaling, matrix product, `Canvas::getTransformMatrix`) and `M_GeometryMore` (`Size::operator/`, the converting constructor of `Rect`), for `T = int`; conversions from other integer types are modulo 2^32. *Proved:* By computation of the checked operations; rounding towards zero is characterised without the division function (`truncated_quot`); for the undefined divisions a case split on the divisor. *Theorems:* `C72_scale`, `C72_divide`, `C72_divide_undefined`, `C72_scale_divide`, `C72_matrix`, `C72_turns`, `C72_convert`, `C72_convert_wraps` [P_GeometryMore].

**C73 Resources, failures and exit code of the font converter** (proved). *Modelled:* `M_Converter`: all of `main` after the command line as code in a monad that records every call to FreeType, iconv and the file system, with exceptions and destructors (`scoped`); what the libraries answer is an arbitrary function `world` of the record. *Proved:* A Hoare-style predicate (`runs`) tells which handles are open after a piece of code and on an exception, that no call failed before a normal end, and that after a failed call only handles are given back; it is proved for each combinator and composed along the code. Files after characters: the same with the count of loaded characters (`loads`, `late`). Turns: a Hoare triple `turns` whose invariant is that every call recorded so far is justified by the calls before it (`in_turn`), with assertions such as "the face is scaled" and "the last call loaded this character". Conversions: the same triple with the history of the two iconv handles (`S_ConverterBytes`): every byte handed to iconv is one that an earlier call left or returned. Definedness: `safe`, with the lemmas of C41, C44 and C58 for the pieces. The two refutations evaluate a run with a failing write and one with a failing `iconv_open`. The messages of exceptions are modelled only as far as they can be undefined: `described` marks the five calls whose message contains FT_Error_String, and `same` relates every step to the one with texts (`C73_error_texts`). *Theorems:* `C73_handles`, `C73_failure`, `C73_no_conversion`, `C73_complete_first`, `C73_requests`, `C73_conversions`, `C73_defined`, `C73_error_texts`, `C73_written_refuted`, `C73_left_refuted`, `C73_reported_refuted` [P_Converter].

**C74 From the command line to texts drawn with the converted font** (proved). *Modelled:* As C73, with the options (C67), table (C41), header text (C58) and the C reader of `S_Header`. *Proved:* `steady` libraries: the run is computed forward (`gives`), the record is split at the file calls and its files are read off (`files`). The three pieces written to the header are shown to be the file of C58 (`headerFile_pieces`: writing only appends), so C63 and C64 apply. *Theorems:* `C74_header`, `C74_binary` [P_Converter].

**C75 Packets are received one by one** (proved). *Modelled:* Composition of the receive calls of `M_UartEsp` and `M_UartArduino` on one line and one buffer (`S_Packets`: packets, noise, sessions; each call continues where the last stopped). *Proved:* One call consumes exactly the noise and the packet in front of it (`esp_packet`, `ard_packet`, by induction over the answers); sessions by induction over the packets. The Arduino sender by computation of `ardSend`. *Theorems:* `C75_esp`, `C75_arduino`, `C75_same_byte`, `C75_sent` [P_Packets].

**C76 Circles are closed connected curves around digital discs** (proved). *Modelled:* `M_Canvas` circles (C31, C32). `S_Outline` defines the digital disc, its edge, paths and walks in the plane. *Proved:* The sets of C31 and C32 are shown to be the edge and the disc (`ring_edge`, `disc_digital`: integer inequalities); closedness by induction over the path; connectedness by walking along each octant and joining the octants (`ring_connected`). *Theorems:* `C76_filled`, `C76_distance`, `C76_edge`, `C76_closed`, `C76_connected`, `C76_nested`, `C76_cover_refuted` [P_Outline].

**C77 Several storage objects can share a region if only up-to-date ones add entries** (proved). *Modelled:* `M_Storage` with one buffer and several `free_head_` values (`S_Handles`). *Proved:* Simulation invariant: the region is a list of records, each object knows of a prefix of it, its head is the length of the prefix (`HInv`); `get` and in-place `set` are shown for prefixes (`get_view`, `set_view`), adding for the object that knows of all. The refutations evaluate two calls; the endless loop by induction over the fuel. *Theorems:* `C77_shared`, `C77_one_writer`, `C77_lost_refuted`, `C77_hang_refuted` [P_Handles].

**C78 Devices on one SPI bus do not disturb each other** (proved). *Modelled:* `M_SpiShare`: conversations (a ChipSelector block with SpiDevice calls) over the transfers of `M_SpiArduino` and `M_SpiEsp`; one log of pin levels and clocked bytes. For ESP32 the polling transmit is modelled for whole bytes in both modes, with the receive length it writes back in full duplex. `S_SpiShare` says what a device sees, what it answers alone, and that on the shared bus only a single selected device answers. *Proved:* Each call is shown to clock its bytes and store the answers (`ard_does`; `esp_does` by induction over the pieces); inside a block only one device is selected (`only`), so the bus answers as that device (`clock_shared`); induction over the conversations (`talks_alone`). *Theorems:* `C78_arduino`, `C78_esp`, `C78_long_send`, `C78_independent`, `C78_nested_refuted` [P_SpiShare].

**C79 Debug lines reach the UART complete, in order and waited for** (proved). *Modelled:* `M_Debug`: DEBUG_LOG and the 128-byte SerialDebug object over `M_SerialOut`, each block sent by the platform's `Send` (`M_UartArduino`, `M_UartEsp`) to a driver with arbitrary answers. *Proved:* The packets of the lines by the lemma behind C19; the driver calls by induction over the packets. *Theorems:* `C79_arduino`, `C79_esp` [P_Debug].

**C80 Lines are received one by one; what one device logs another reads** (proved). *Modelled:* Nothing new: `S_Lines` runs the `ReceiveUntil` of `M_UartEsp`/`M_UartArduino` repeatedly on one line and one buffer. *Proved:* C46 for each call, and inductions over the requests of a line and over the lines; the debug lines from the lemmas behind C79. *Theorems:* `C80_esp_nothing_lost`, `C80_esp_lines`, `C80_arduino_pieces`, `C80_arduino_lines`, `C80_arduino_full_line`, `C80_debug` [P_Lines].

**C81 Drawing calls obey the painter's rule** (proved). *Modelled:* `M_Drawing`: a list of calls on one canvas and its frame buffer, over `M_Canvas` and `M_FrameBuffer`; a drawing call is any operation with a `paints` theorem (C26-C35). *Proved:* The painter's rule (`shows` in `S_Drawing`) by induction over the calls; equal images from equal pixels, since every bit belongs to a pixel (C25). *Theorems:* `C81_painter`, `C81_overpaint`, `C81_order`, `C81_erase`, `C81_clear` [P_Drawing].

**C82 Shapes and texts move with their position** (proved). *Modelled:* As C26-C35. *Proved:* The sets painted by C26-C35 are invariant under displacement; for lines because `line_pixel` (C27) only depends on differences, and a displacement in the logical plane is one in the frame buffer. *Theorems:* `C82_shapes`, `C82_texts`, `C82_wherever` [P_Anywhere, P_Moves]. *Note:* One set per rotation for all canvases and displacements; for lines by the exact pixels of C27. C82_wherever: for all coordinates at which a call is defined.

**C83 Exactly which coordinates the drawing calls can take** (proved). *Modelled:* As C26-C32 (`M_Canvas`, `M_Geometry`); no bound on coordinates or canvas, only that they are ints. *Proved:* `S_Ranges` writes the conditions down without the model's loops. That they suffice: the loop invariants of C27-C32, now stated with these conditions (`drawLine_room`, `drawRectangle_room`, `drawFilledRectangle_room`, `drawCircle_room`; the earlier theorems are special cases). That they are necessary: a run that returns is inverted step by step (`drawLine_inv`: the last iteration shows the steps past the end; `circle_inv`: the run around the origin visits the extreme points, and the run around the given centre makes the same moves). The error term is settled by the radius alone: each row of the way is met at its widest pixel (`way_row`), so a run that returns shows `error_fits` (`way_fits`) and the invariant of the loop needs no more than it.  `C83_radii_monotone_refuted` checks the some 1500 critical rows of one radius by computation (`rows_fit`, proved sound). *Theorems:* `C83_pixel`, `C83_line`, `C83_outline`, `C83_filled`, `C83_circle`, `C83_radii`, `C83_radii_monotone_refuted`, `C83_on_canvas` [P_Ranges]. *Note:* All conditions are exact (iff), for all ints.

**C84 Exactly where texts can be drawn and which texts can be measured** (proved). *Modelled:* As C34-C38 (`M_Font`, `M_Geometry`); no bound on positions, texts or canvas. *Proved:* `S_TextRoom` writes the conditions down over `glyph_pixels` and `advance` of `S_Font`. The row and column loops are shown to succeed if each plotted point does (`glyphRows_ok`, induction over rows and columns), and a run that returns is inverted to its plotted points (`glyphRows_plots`) and its characters (`drawStringAt_inv`); a point is plotted exactly if it and its image are ints (`plot_room`, `plot_inv`, by cases over the rotations). Measuring: the loop in both directions (`boundsLoop_ok`, `boundsLoop_inv`). *Theorems:* `C84_glyph`, `C84_text`, `C84_plain`, `C84_bounds` [P_TextRoom]. *Note:* Conditions are exact (iff), for canvases with and without pixels.

**C85 Uses of an Arduino SPI bus: raw sends stay outside transactions, which never nest or stay open** (proved). *Modelled:* `M_SpiArduino`: `sendByte`, `sendBytes` and lists of uses of one bus; SPIClass::write and writeBytes are taken to clock the bytes out in order. *Proved:* `S_SpiUses` states the effect of one use and what a balanced history is. One use: the theorems of C50 and `exchange_spec`. Sequences: induction over the calls with the invariant that the history is balanced, so that what is clocked inside and outside adds up over concatenation (`clocked_balanced`). *Theorems:* `C85_use`, `C85_uses` [P_SpiUses].

**C86 Devices on one I2C bus do not disturb each other** (proved). *Modelled:* `M_I2CShare`: the calls of `M_I2C` over a bus with devices. TwoWire (Arduino) and the ESP-IDF master functions are not in the repository; they are folds over the calls made, with the queue limit of TwoWire and the 7-bit addresses. *Proved:* `S_I2CShare` runs one device alone. Each call is shown to add only messages for its bus address and to give what the device alone gives (`ard_does`, `esp_does`, from C54 and the state of the drivers after the calls); sequences by induction, projected to one address. *Theorems:* `C86_arduino`, `C86_esp`, `C86_false_means_unseen_refuted`, `C86_addresses_refuted` [P_I2CShare]. *Note:* The drivers below the calls are modelled by their documented behaviour (M_I2CShare).

## Trusted base

* The Coq 8.16.1 kernel (checked again with `coqchk`), including its `vm_compute` machine.
* The correspondence between the C++ source and the `M_*.v` files, which is by reading: each definition cites the lines.
* The English reading of the definitions in `S_*.v` and of the conventions above.
* The standard-library axioms listed under *Print Assumptions*; there are no axioms of our own.
* `M_FontData.v` and `M_FontFile.v` are generated copies of `graphics/GFXFonts/FreeSans15pt7b.h`; C59 proves that they
  agree with each other. `M_Pictures.v` is a generated copy of the reference pictures in `tests/data`; C70 proves that
  the model draws exactly these pictures.

### Modelled

`MemoryView.h`, `EndianConversion.h`, `PersistentStorage.h/.cpp`, `BufferedOut.h/.cpp`, `SerialOut.h` and both
`SerialOut.cpp`, `Debug.h` and both `SerialDebug.cpp`, `graphics/BaseGeometry.h`, `graphics/Canvas.h/.cpp`, `graphics/SimpleFrameBuffer.h`,
`graphics/FrameBufferBase.h` (interface), `graphics/EmbeddedFont.h/.cpp`, `graphics/GFXFontsAdapter.h`,
`graphics/GFXFonts/FreeSans15pt7b.h`, `gfx-font-converter/BitStream.h`, `EncodingConverter.h/.cpp`, `FontConverterConfig.h/.cpp`,
`FreeTypeLibrary.h/.cpp`, `FreeTypeFace.h/.cpp`, `FreeTypeGlyph.h/.cpp` and `main.cpp` there, both `PacketUart.cpp`, `SimpleUartDevice.cpp`, both `SpiBus.cpp` and `SpiDevice.cpp`, Arduino `SpiBus.h`, `GpioDigitalPin.h` and both
`GpioDigitalPin.cpp`, `I2CDevice.h` and both `I2CDevice.cpp`, `esp32-esp-idf/AnalogPin.cpp`,
`esp32-esp-idf/Delays.cpp`, `esp32-esp-idf/SleepFunctions.h`, both `I2CBus.cpp`,
`tests/PBMHelper.h/.cpp`, and `tests/MonochromeFrameBufferTest.cpp` with its reference pictures.

### Not modelled

* FreeType, iconv and the file system themselves (C73, C74: their answers are arbitrary); the messages the
  converter prints (except that a missing text of `FT_Error_String` is undefined behaviour, C73); failing memory
  allocations.
* `arduino/Delays.cpp` (but for the width of its results) and `arduino/AnalogPin.cpp` (each function only calls the core's function of the same name).
* `EmbeddedFonts.h/.cpp` (object definition; the header
  declares the object `const`, the source defines it non-const — C++ linkage, outside the model).
* The ADC power calls, the constant fields and the DMA selection of `SpiBus::init`, `UART_SCLK_APB` and the interrupt flags of
  `SimpleUartDevice::init`: constants handed to the driver.
* Opening files and write errors in `tests/`; the remaining test files, which are evaluated on the model in `T_*.v` instead (below); the CMake files and the continuous integration scripts.
* Alignment and the aliasing rules of C++ for the casts of `PersistentStorage` (its records are packed, so that
  every address is aligned for them) and of `MemoryView`: memory is a plain array of bytes.
* Concurrency, interrupts, caching and timing below the level of driver calls.

### The repository's own tests

The unit tests are run on the model. C70 proves the seven picture tests for every start image. `T_Geometry.v`,
`T_BufferedOut.v`, `T_Endian.v`, `T_MemoryView.v` and `T_Storage.v` transcribe the other test files as examples
evaluated by Coq; they are checks of the transcription and carry no claim. Left out are assertions about C++ types and
the `std::string` stored byte by byte in `PersistentStorageTest.cpp:131-137`.

### Print Assumptions

Every property theorem is followed by `Print Assumptions` in its file. Of 343 theorems, 322 are "Closed under the global context". The remaining 21 depend on the real numbers of the standard library (through Flocq) and list exactly

`ClassicalDedekindReals.sig_forall_dec`, `ClassicalDedekindReals.sig_not_dec`, `Classical_Prop.classic`, `FunctionalExtensionality.functional_extensionality_dep`

These theorems are: `C04_float_pattern`, `C04_float_roundtrip`, `C12_prefix_kept`, `C13_cstring_iff`, `C13_float_iff`, `C13_otherwise_inside`, `C13_overrun_iff`, `C16_all_or_nothing_refuted`, `C16_float`, `C16_no_minus_sign`, `C16_no_room`, `C17_clear`, `C17_persist`, `C17_step`, `C18_reachable`, `C19_end`, `C19_line`, `C19_lines`, `C79_arduino`, `C79_esp`, `C80_debug`.

The closed theorems, file by file:

* `P_Anywhere.v`: `C33_wherever`, `C33_line_wherever`, `C33_line_exact`, `C82_wherever`
* `P_BufferedOut.v`: `C12_text`, `C12_text_determined`, `C14_width`, `C14_width_keeps_digits_refuted`, `C15_canonical`, `C15_text_unique`, `C17_manipulators_print_nothing`, `C18_data`
* `P_Canvas.v`: `C26_clipping`, `C26_pixel`, `C26_operations`, `C27_line`, `C27_pixels`, `C27_one_per_step`, `C28_symmetric`, `C29_border`, `C29_any_size`, `C29_empty_rectangle`, `C30_filled`, `C31_circle`, `C31_ring`, `C31_flat`, `C32_filled`, `C32_rows`, `C33_rotation`, `C33_line`, `C33_line_refuted`, `C33_negative_radius_refuted`
* `P_Converter.v`: `C73_handles`, `C73_failure`, `C73_no_conversion`, `C73_complete_first`, `C73_requests`, `C73_conversions`, `C73_defined`, `C73_error_texts`, `C73_reported_refuted`, `C73_written_refuted`, `C73_left_refuted`, `C74_header`, `C74_binary`
* `P_Drawing.v`: `C81_painter`, `C81_overpaint`, `C81_order`, `C81_erase`, `C81_clear`
* `P_Endian.v`: `C03_reverse16`, `C03_reverse32`, `C03_involution16`, `C03_involution32`, `C03_all_words`, `C04_halves`, `C04_halves_bytes`
* `P_Font.v`: `C34_glyph`, `C34_reads`, `C33_glyph`, `C35_text`, `C35_concatenation`, `C36_lookup`, `C36_first`, `C36_converter`, `C37_last_entry`, `C37_view`, `C38_bounds`, `C38_empty`, `C38_inside`, `C38_width`, `C38_inside_refuted`, `C39_layout`, `C39_codes`, `C39_text`
* `P_FontText.v`: `C44_array`, `C44_head`, `C44_read_back`, `C44_limit`, `C58_table`, `C58_lines`, `C58_offset`, `C58_struct`, `C58_file`, `C59_header`, `C59_binary`, `C59_bytes`
* `P_FrameBuffer.v`: `C22_drawPixel`, `C22_anywhere`, `C22_drawPixel2`, `C23_clear`, `C23_clear_determined`, `C23_setColor`, `C23_even_colour`, `C24_left_columns`, `C24_right_columns`, `C24_never_intended`, `C24_constructor`, `C25_geometry`, `C25_accepted`, `C25_partition`
* `P_Geometry.v`: `C20_corners`, `C20_corners_defined`, `C20_corners_refuted`, `C20_translate`, `C20_arith`, `C20_assoc`, `C20_sub_self`, `C21_transform`, `C21_bijection`, `C21_rect`, `C21_rect_anywhere`, `C21_rect_inside`, `C21_setRotation`
* `P_GeometryMore.v`: `C72_scale`, `C72_divide`, `C72_divide_undefined`, `C72_scale_divide`, `C72_matrix`, `C72_turns`, `C72_convert`, `C72_convert_wraps`
* `P_Handles.v`: `C77_shared`, `C77_one_writer`, `C77_lost_refuted`, `C77_hang_refuted`
* `P_Header.v`: `C63_header`, `C63_name_refuted`, `C63_shipped`, `C64_text`
* `P_I2CBus.v`: `C69_probe`, `C69_link`, `C69_init`, `C69_reset`
* `P_I2CShare.v`: `C86_arduino`, `C86_esp`, `C86_false_means_unseen_refuted`, `C86_addresses_refuted`
* `P_Lines.v`: `C80_esp_nothing_lost`, `C80_esp_lines`, `C80_arduino_pieces`, `C80_arduino_lines`, `C80_arduino_full_line`
* `P_MemoryView.v`: `C01_subspan`, `C01_first`, `C01_last`, `C02_as_bytes`, `C02_write_through_bytes`, `C02_access`, `C02_compose`, `C02_split`, `C02_range`, `C02_begin_end`, `C02_made`
* `P_Misc.v`: `C53_scope`, `C53_after`, `C53_nested_refuted`, `C53_level`, `C53_check`, `C54_send`, `C54_receive`, `C54_long_request`, `C54_both`, `C54_esp`, `C55_mapping`, `C55_read`, `C55_never_released`, `C55_second_read_fails`, `C56_delay`, `C56_deep`, `C56_light`, `C56_light_not_early`, `C56_wakeup`, `C56_oversleep_refuted`, `C56_microseconds`, `C56_microseconds_wrap`, `C56_millisecond_ticks`, `C56_elapsed`, `C56_elapsed_us`, `C56_elapsed_us_arduino`, `C49_light_wrap`, `C60_esp`, `C60_arduino`, `C61_init`, `C61_again`, `C62_probe`
* `P_Moves.v`: `C82_shapes`, `C82_texts`
* `P_Options.v`: `C67_command_line`, `C67_total`, `C68_name`, `C68_identifier`, `C68_header`
* `P_Outline.v`: `C76_filled`, `C76_distance`, `C76_edge`, `C76_closed`, `C76_connected`, `C76_nested`, `C76_cover_refuted`
* `P_Packets.v`: `C75_esp`, `C75_arduino`, `C75_same_byte`, `C75_sent`
* `P_Packing.v`: `C40_packed`, `C40_pieces`, `C40_determined`, `C41_data`, `C41_any_size`, `C42_codes`, `C42_lookup`, `C43_offsets`, `C43_in_place`, `C43_glyph_file`, `C41_drawn`, `C45_step`, `C45_inside`, `C45_single`, `C45_independent_refuted`
* `P_Pbm.v`: `C66_text_picture`, `C66_binary_picture`, `C66_padded_rows`, `C66_rejects`, `C66_sizes`, `C66_any_file`, `C66_compare`, `C65_text`, `C65_binary`, `C65_whole_bytes`, `C65_no_pixels`, `C65_text_refuted`
* `P_Ranges.v`: `C83_pixel`, `C83_line`, `C83_outline`, `C83_filled`, `C83_circle`, `C83_radii`, `C83_radii_monotone_refuted`, `C83_on_canvas`
* `P_Saved.v`: `C71_text`, `C71_drawn`, `C71_check`, `C71_compare`
* `P_Scenes.v`: `C70_rotations`, `C70_lines`
* `P_Spi.v`: `C50_send`, `C50_receive`, `C50_exchange`, `C50_nothing`, `C51_transfer`, `C51_pieces`, `C51_sent`, `C51_lengths`, `C51_full_duplex_send`, `C51_no_init`, `C51_no_init_rejected`, `C51_receive_only`, `C52_removed`, `C52_release`, `C52_unused`, `C52_life`, `C52_init`, `C52_frequency_refuted`
* `P_SpiShare.v`: `C78_arduino`, `C78_esp`, `C78_long_send`, `C78_independent`, `C78_nested_refuted`
* `P_SpiUses.v`: `C85_use`, `C85_uses`
* `P_Storage.v`: `C05_finite_map`, `C06_set_fails_iff_full`, `C06_used_space`, `C06_overwrite_free`, `C07_reopen_identity`, `C08_open_any_bytes`, `C08_refuted_hang`, `C08_refuted_out_of_bounds`, `C08_exact`, `C09_any_subset`, `C09_ordered_histories`, `C09_progress`, `C09_any_names`, `C10_readback_iff_short`, `C10_long_never_found`, `C10_long_set`, `C10_any_names`, `C11_big_never_found`, `C11_big_set`
* `P_TextRoom.v`: `C84_glyph`, `C84_text`, `C84_plain`, `C84_bounds`
* `P_Uart.v`: `C46_until`, `C46_running_iff`, `C46_ends`, `C46_no_deadline`, `C46_waits`, `C47_between`, `C47_small`, `C47_search_ignores_clock`, `C47_ends`, `C47_running_iff`, `C47_waits`, `C47_wrap`, `C48_receive`, `C48_receive_running_iff`, `C48_until`, `C48_until_ends`, `C48_end_received_refuted`, `C48_between`, `C48_between_running_iff`, `C48_too_small`, `C48_between_too_small`, `C48_send`, `C49_esp_wrap`, `C49_esp_not_early`, `C49_arduino_wrap`, `C49_arduino_not_early`, `C57_counts`, `C57_bounded_refuted`, `C57_wait`
