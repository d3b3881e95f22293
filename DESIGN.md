# Formal model of henrythasler/telescope-sync in Rocq (Coq 8.16.1)

## 1. Layout

* `theories/Base.v` – outcomes (`Ok` / `UB reason`), bytes, buffers, fixed-width integers.
* `theories/Num.v` – arithmetic as a record of operations and its instances: `NumR` (exact reals),
  `NumB` (reals with IEEE-754 rounding, Flocq), `NumSF` (executable binary64, `SpecFloat`).
* `theories/M_*.v` – the model, one definition per function of the program, each citing file and lines.
* `theories/S_*.v` – small specifications, written without the model's helpers.
* `theories/P_*.v` – proofs.
* `theories/Properties_*.v` – only the property theorems, `Print Assumptions` below each, and beside each an
  `Example`/`_nonvacuous` theorem that its hypotheses are met by a non-trivial case.

| model file | code | spec | property files |
|---|---|---|---|
| `M_Checkbits` | `lib/helper` `Checksum` | `S_Checkbits` | `Properties_Checkbits` |
| `M_Helper` | `lib/helper` `MathHelper` (f_mod, julianDay, sidereal time) | `S_Helper` | `Properties_Helper` |
| `M_Linalg` | `lib/linalg` (3×3: LUDecompose, LUSolve, Invert, products) | – | `Properties_Alignment` |
| `M_LinalgN` | `lib/linalg`, the templates for every dimension; simplifications: memory is a total function (the read behind the last row gives an arbitrary value), Determinant's copy has the element type of its argument | `S_LinalgN` | `Properties_LinalgN` |
| `M_Sparse` | `lib/linalg` `Sparse` | in the statements | `Properties_Sparse` |
| `M_Alignment` | `lib/alignment` | `S_Alignment`, `S_Delaunay` | `Properties_Alignment`, `Properties_Delaunay`, `Properties_AlignIEEE` |
| `M_Telescope` | `lib/telescope` (state, transforms, calibration) | `S_Sky`, `S_SkyIEEE`, `S_Libm` | `Properties_Sky`, `Properties_SkyIEEE`, `Properties_Finite`, `Properties_FiniteDevice`, `Properties_FiniteMessages`, `Properties_AlignFinite`, `Properties_FiniteDevice2`, `Properties_FiniteMessages2`, `Properties_FiniteMessages3` (helpers `P_LinFinite`, `P_AlignFinite`, `P_Angle2`) |
| `M_Stellarium` | `lib/telescope` `packPosition`/`unpackPosition` | `S_Stellarium` | `Properties_Stellarium`, `Properties_Encode` |
| `M_Gnss` | `lib/gnss` | `S_Gnss` | `Properties_Gnss` |
| `M_NexStar` | `lib/nexstar` | `S_NexStar` | `Properties_NexStar`, `Properties_Malformed`, `Properties_NexStar2` |
| `M_Led`, `M_Imu`, `M_Gyro`, `M_Persistency` | `lib/ledmanager`, `lib/lsm6wrapper`, `lib/bnodata` (range check), `lib/persistency` | in the statements | `Properties_Led/Imu/Gyro/Persistency` |
| `M_Main` | `src/main.cpp`: globals, callbacks, `loop()` | `S_Json`, `S_Device`, `S_Safe`, `S_Telemetry` | `Properties_Main*`, `Telemetry*`, `Device*`, `Heading`, `Pitch`, `Publish`, `DeviceIEEE` |
| `M_Setup` | `src/main.cpp`: `setup()`, Wi-Fi callbacks, the device from power-on | `S_Setup` | `Properties_Setup`, `Properties_Setup2` |
| `M_Race`, `M_Race2` | Bluetooth callback running concurrently with `loop()`: replies; star list and orientation, statement by statement | – | `Properties_Race`, `Properties_Race2` |
| `M_Node`, `M_Python` | `node-server/src/server.ts`, `python-server/server.py` | – | `Properties_Node`, `Properties_Python` |
| `M_Libc` | the C/C++ library functions used | `S_Gnss` | – |

Suffixes: `_partial` = only part of the property (the missing part is stated in a comment and in
MANIFEST.json); `_refuted` = the property as stated is false of the code; the theorem exhibits the
witness. Where a natural expectation is false of the code it is listed as a property of its own with status
"partial" and the true part is a separate "proved" property.

## 2. Modelling decisions

* **Undefined behaviour is an outcome.** Out-of-bounds accesses, reads of indeterminate values and
  float→integer conversions out of range give `UB`, never a default value. Two exceptions are parameters
  instead, so that theorems hold for whatever the machine delivers: `m9` (the element LUDecompose reads past
  the 3×3 array) and `junk` (uninitialised circumcircle centre of a degenerate triple).
* **Platform parameters are explicit**: width of `size_t`/`long` (32 on the ESP32, 64 on the native
  test build), signedness of `char`, `ARDUINO` defined or not, float→unsigned conversion policy
  (strict ISO, or "wrap" as x86/most FPUs happen to do). `long double` is `double` on the ESP32.
* **Arithmetic** is abstracted by `Num` (no laws), so control-flow/structural theorems hold for *every*
  arithmetic – IEEE doubles with NaN and infinities included. Geometric theorems are for exact reals;
  theorems about rounding are for `NumB`; refutations caused by rounding are computed in `NumSF`. `P_NumCorr` proves that the operations of `NumSF` compute those of `NumB` as long as nothing overflows; C157 and C158 are stated on `NumSF` doubles directly.
  gnss/nexstar's `floor()`/`abs()` are taken as the floating-point overloads; `2451545L` is exact in double.
* **Loops** are structural recursion, folds, or fuel with a proof that the fuel suffices.
* **qsort** is any function returning a sorted permutation; theorems quantify over it.
* **Hardware / library calls** (SPI, sockets, MQTT client, SPIFFS, libm) are inputs or oracles. Assumed of them:
  WiFiClient/WiFiServer as in arduino-esp32 (`available()` hands out the pending client), PubSubClient 2.8
  (publish fails above its buffer size), SPIFFS (see `M_Persistency`), Node Buffer writes range-check, Python
  `struct.unpack` needs the exact size and `datetime.fromtimestamp` is an abstract predicate `valid_time`.
* **Device histories** are lists of events (a pass of `loop()` with the values all inputs deliver in it, an MQTT
  message, a Bluetooth packet) run from the state after `setup()`; theorems quantify over all lists.
* **Race**: each `handleRequest`/`write` is one atomic step; fewer behaviours than the real program has, enough for
  the refutation; the true part (C94) is conditional on no interleaving. `M_Race2` interleaves single statements on
  sequentially consistent memory (again fewer behaviours than the real program has); the triangulation after a sync is not in it.

Not modelled: serial console output (except the out-of-bounds reads made while printing in `NexStar`), the rest of the
BNO055 data class (`lib/bnodata`, not used by the program), the internals of sMQTTBroker
(`broker.update()` is a no-op on our state), the CAD/doc notebooks.

## 3. Plan per property

| id | model | proof |
|----|-------|-------|
| C01–C03 | `verifyAmtCheckbits` on Z with bit operations | bit-level: each parity is an xor of test bits |
| C04–C07, C63, C64 | `packPosition`, `unpackPosition` on byte lists; conversion policy parameter | list algebra, little-endian lemmas, Flocq exactness for C06, witnesses for C07/C64 |
| C08–C16, C77–C79 | `handleRequest` returning reply, state, reads; snprintf/strncpy/strtoul models | case analysis, digit-string induction; C13 via C30+C40; witnesses for southern/western positions |
| C17–C25, C70–C74 | std::string find/substr, strtol/strtof, GNSS record | induction over strings; encode/decode theorems; witnesses by `vm_compute` |
| C26, C76 | integer/float model of `julianDay` | Z arithmetic with div/mod, rounding bounds via exact representability |
| C27, C28, C75 | f_mod at R and at NumB | floor lemmas; witness in NumSF |
| C29–C33 | real-arithmetic model of the transforms, `atan2` defined from `atan` | trigonometry in R; direction vectors and rotation matrices |
| C34–C37, C39, C43, C47, C65–C67 | `Alignment` over any `Num` | invariants over operation histories; overflow witnesses |
| C38, C103, C104 | same model at R | incremental-Delaunay invariant (empty circumcircles, cavity boundary, oriented edges, coverage); needs points in general position and no array overflow |
| C40–C42, C46, C62, C68 | BLA `LUDecompose`/`LUSolve`/`Invert` at R, `m9` arbitrary | explicit 3×3 elimination, field |
| C110, C111 | area test at NumB (double products, float sums) | Flocq relative-error bounds |
| C44, C45, C69 | area test, centroid search | linear inequalities over R; argmin induction; rounding witness |
| C49, C80, C81 | LED level as function of the 32-bit microsecond clock | div/mod arithmetic |
| C53, C82 | sample ring of 50 | induction over the sample history |
| C59, C83 | file system map, prefix-writing oracle, crash points | case analysis |
| C48, C50–C52, C54–C58, C84–C90, C95, C96 | event-driven model of `loop()` and callbacks | invariants over event lists, Hoare-style lemmas per task |
| C87, C88, C99 | heading filter with both argument orders of the SPI reads | real analysis of the IIR step; witnesses |
| C57, C91–C93 | snprintf into txBuffer, MQTT text | digit/printf lemmas, JSON recogniser in `S_Json`; overflow and NaN witnesses |
| C94 | two-sided interleavings | schedule witness; induction for atomic schedules |
| C60, C98, C100–C102, C109 | Node server on byte lists with `Throw` | byte codec lemmas, Flocq exactness |
| C61, C97 | Python server | strip/struct lemmas, white-space witness |
| C112–C119 | `setup()` over all compile-time switches and hardware answers; histories from power-on | case analysis, induction over the waiting loop and over histories |
| C120–C122 | histories of the device in exact arithmetic, from the commands to the reported position and the bytes on the wire | the named star stays stored (induction), C40/C46, C30, C96, C06 |
| C123 | histories with times | C48 and the 500 ms task |
| C124, C125 | the byte strings read by the 500 ms tasks of a history | induction over the history, C25 |
| C126–C130 | LUDecompose, LUSolve, Invert, Determinant for every n over exact reals; C126 also links the 3×3 model | loop invariants over columns (computed part satisfies the Crout equations up to row permutation), Gauss elimination of an alternating multilinear function |
| C131, C132 | element-wise loops with the source as destination | one lemma about assignment loops that read what they wrote |
| C133, C134 | open-addressing table, histories of reads and writes | representation invariant (every live key reachable along live slots), pigeonhole for the full table; witnesses |
| C135, C136 | histories of the device in exact arithmetic, from the commands to the bytes of a NexStar reply on either transport | the named star stays stored (C120-C122), C46 for corners of triangles, reply layout (C08), conversion to 32-bit words |
| C137–C140 | the texts of the gnss, alignment and matrix messages and the outputs of the 500 ms and 2 s tasks to the server and to the broker; decimal notation and JSON specified separately | printing digit by digit equals decimal notation (induction), one frame lemma per publish, C105/C106 for the counts, grammar derivations for JSON |
| C141, C142 | the accelerometer samples a history reads, the mean, the calibration and atan2 of the 100 ms task | the ring buffer holds the last 50 samples (C53); polar coordinates; error analysis of the float operations and of atan2 for IEEE; C142 by the two-pass history after a two-second start |
| C143–C145 | statement-level interleaving of addVertexPair, clearAll, setOrientation | invariant over all schedules; witnesses for C144, C145 are schedules of two calls |
| C146 | gyroSample, meanVec3, clipGyroNoise, validateSensorOffsets | induction over the samples; reals |
| C147 | as C122, C136 | position_at_star (C136), C96, C04, C06; the signed word by interval reasoning |
| C148 | M_Telescope over NumB, any Trig within 2^-50 | P_SkyIEEE, P_SkyIEEE2: error of each rounded step, conditioning of atan2/hypot as a direction (no singularity at the poles); P_Angle: from directions to degrees |
| C149 | M_Main over NumB | C105 history, generic one-point matrix, rounding of the translation (P_OneIEEE), C148 |
| C150 | M_Main over NumB | C149, C96, C04, encoding error (P_Stellarium) |
| C151–C153 | M_NexStar, M_Gnss with the strtoul/strtol models | every byte string is covered: range lemma for strtoul; digit-string induction |
| C154–C156 | M_Linalg, M_Alignment, M_Main over `NumB` | rounding-error analysis of the LU inversion with row scaling and pivoting (`P_LinIEEE*`): the pivots are bounded below by the determinant, the determinant by the separation / area; `P_AlignIEEE` adds the product and the reduction of the azimuth; composed with C105 and C148 for the device |
| C157–C158 | M_Helper, M_Telescope, M_Alignment, M_Main over `NumSF` | `P_NumCorr`: each SpecFloat operation computes the rounded real as long as it stays below 2^1024 (Flocq BinarySingleNaN), magnitudes tracked as powers of two; `P_Libm`: a library on doubles induces one on reals; C148 and C149 carry over |
| C159–C160 | M_Main, M_Stellarium, M_NexStar over `NumSF` | C158 for the position; `u32_agrees`, `encode_agrees`, `word_agrees` carry the conversions over to `NumB`; error of the two words |
| C161–C162 | M_Alignment, M_Linalg over `NumSF` | transfer of every operation of the two matrix set-ups, the 3x3 LU inversion and the product from rounded reals to finite doubles (`P_LinFinite`, `P_AlignFinite`: no operation overflows, pivots are the same), then the bounds of C154/C155 |
| C163–C165 | M_Main, M_Telescope, M_Stellarium, M_NexStar over `NumSF` | C161/C162 for the orientation (any number of stars when each is at a corner of every triangle it is found in), C157 for the conversions; `P_Angle2` turns a bound on the unit vector into degrees; words as C159/C160 |
| C166–C169 | M_Main, M_Telescope, M_Stellarium, M_NexStar over `NumSF`, wrapping conversion | C158/C163 for the position, one lemma per word (`stellarium_word`, `nexstar_word`) for every angle up to 400 degrees, C12/C106 for the sync request; C169 through `task_100_parts` for the TCP client |
| C170, C171 | M_Node over `NumB` and `NumSF` | P_NodeIEEE: the server's angles against the firmware's for the same library (one rounding per operation), then C157 for each library; the message through `write32_agrees`; the connection by induction over the messages, the stored position being constant |
| C172 | M_Main, M_NexStar over `NumSF` | C12 for the angles named, C105/C106 for the commands, then C167 for the history with the sync appended |
| C173 | M_Main, M_Stellarium over `NumSF` | the commands of the pass (C105) with the fields of the message, calm passes add none, then C166/C167 for the whole history |
| C105–C108 | whole-device histories | command extraction refines an abstract command list; invariants; memory-safety Hoare rules |

## 4. What was found false of the code

Each has a `_refuted` theorem with the witness.

* C63 unpackPosition never reads outside the given data: False of the code: bytes 0..1 are read before any length check (C63_header_read_refuted, every input). Proved: no out-of-bounds read when at least 2 bytes are available (C05_accepts_exactly).
* C64 Every position the telescope can report can be encoded: False of the code: negative declinations convert a negative double to uint32_t, undefined in ISO C++; C07_defined_exactly gives the exact set of encodable angles.
* C65 Sixty-four alignment points can be stored: False of the code: in every history the 64th point resets the count to 0 (refuted for all histories); up to 63 points are kept.
* C66 Reference azimuths stay within half a turn of the first point: False of the code (witness in IEEE double). Proved: it holds at the moment of insertion relative to the then first point if the given azimuth is within 540 degrees of it.
* C67 The triangle arrays never overflow: False of the code: near-degenerate point sets make it need more than 4n triangles in IEEE double (two witnesses). Proved for up to three points, for every arithmetic; in exact arithmetic for every point set in general position.
* C68 Degenerate triangles fall back to no correction: False of the code: a collinear triangle is reported as singular only if all azimuths and the first altitude are 0; exact characterisation proved.
* C69 A direction inside a triangle is recognised on the device: False of the code: witness in a 60x50 degree triangle.
* C46 At an alignment point the calibrated orientation is its reference: False as stated: the containment tolerance can select another triangle (witness). Proved in exact arithmetic for one and two points, and with triangles when no foreign triangle passes the containment test at the point.
* C62 Matrix inversion reads only the matrix: False of the code: the row-scaling loop runs to j<=dim and reads m[9]. In exact arithmetic the value read does not influence the inverse of a regular matrix.
* C70 A sentence with '*' before '$' is rejected: False of the code: accepted exactly when the number behind '*' is 0 or missing (exact characterisation for all strings, with a witness).
* C71 Missing markers are rejected on the 64-bit test build too: False of the code: npos truncated to uint32_t never equals npos on 64-bit; every string without '*' makes strtol read far outside.
* C72 Losing the fix keeps the hemisphere: False of the code: every RMC sentence without fix and with empty hemisphere fields sets south and west while keeping the coordinates.
* C23 NMEA parsing never reads past the sentence: False of the code for short sentences with a correct checksum (e.g. $GPRMC*4B). Proved safe for all strings with enough commas behind the header (9 for RMC/GGA, 3 for GSV).
* C73 The time of day is decoded correctly with milliseconds: False of the code: 23:59:59.999 is decoded as 23:59:60 (float has 1/64 s resolution there).
* C74 Lines without a sentence do not disturb the others: False of the code: a first line without '$' makes the next sentence parse twice, and an unfinished sentence parse.
* C76 Julian day numbers are consecutive up to year 9999: False of the code: the float product 365.25f*(year+4716) is rounded up from March 6771 on, so a day is skipped. Proved for years 1..6767 (C26).
* C75 f_mod normalises on the device: False of the code: f_mod(-1e-20,360)=360. Proved: for n=360 and |a|<=1.4e7 the result is within 1e-8 of [0,360] and within 1e-12 of a modulo 360.
* C78 Unknown requests are not read beyond their end on the device: False of the code: the device build prints request[0..7] of every unknown request; refuted for every unknown request shorter than 8 bytes.
* C77 The position reply encodes southern declinations: False of ISO C++: the negative declination is converted to uint32_t out of range (undefined). Proved: the reply carries exactly what the platform's out-of-range conversion yields; with wrap-around that is the synced word, with saturation it is 0.
* C79 The location answer is right south of the equator and west of Greenwich: False of the code: undefined conversion by ISO C++, and on every platform the degrees byte is at least one minute too large.
* C80 The single status flash is seen with the 25 ms update rate: False of the code: the flash lasts 10 ms; a schedule with 31.25 ms gaps never sees it.  Proved: it is seen when updates are at most 10 ms apart.
* C81 The LED pattern is regular for ever: False of the code after the counter wraps; proved up to the wrap.
* C82 The mean acceleration is right from the first sample on: False of the code: the missing samples count as zero and the sum is divided by 50.
* C83 A failed or interrupted write keeps the old calibration data: False of the code: opening for writing truncates the file first.
* C84 The 'alignment complete' answer reflects whether an alignment exists: False of the code: binary syncs do not set the flag and a reset does not clear it; what the flag does follow is C14.
* C85 Every task keeps running however long a pass takes: False of the code: if each pass takes more than 20 ms only the 20 ms task ever runs; the true part is C48_due_task_runs_soon.
* C86 A receiver that only sends garbage counts as lost: False of the code: any received byte resets the time-out.
* C87 The heading crosses north smoothly: False of the code: the filter averages angles linearly.
* C88 The heading reading is the encoder angle: False of the code: it divides by 16385; the error stays below 0.022 degrees.
* C89 A TCP request is executed once: False of the code: the -1 of a failed read counts as a request and the old bytes are parsed again.
* C90 A cut-short TCP request does not use old bytes: False of the code; the true part is C56.
* C95 A binary-protocol client is served after a NexStar session: False of the code: NexStar mode is never left, so after one answered NexStar request no position message is ever sent again.
* C99 The heading does not depend on unspecified evaluation order: False of the code: the check bits do not detect the swap.
* C91 Publishing alignment points stays inside the buffer: False of the code: 22 points (about 17 with usual coordinates) overflow txBuffer; exactly when is C57_in_bounds_exactly.
* C92 Published alignment points are JSON: False of the code: there is a comma behind the last point.
* C93 The built-in broker distributes the same text as the MQTT server: False of the code: no NUL is written behind the ']'.
* C94 Bluetooth and main loop do not corrupt each other's replies: False of the code: txBuffer is shared without a lock.  Only the two schedules without overlap are right for every request.
* C61 Python server decodes every goto message: False of the code: strip() removes the last byte of a message whose declination word has a white-space top byte.
* C100 Every position the Node server computes can be sent: False of the code: right ascensions of 24 h and more are not reduced.
* C104 The hull of the stored points is covered: False of the code: the frame is too close for flat point sets; three points in general position get no triangle.
* C108 With no stored points no correction is applied: False of the code: the 64th point empties the list but leaves the triangles.
* C117 A reset message clears the alignment in both network modes: False of the code: as access point the MQTT client is not set up and the broker's onPublish only prints; proved that no history as access point contains a reset. The true part (client mode) is C54.
* C119 The device joins the configured network when it appears later: False of the code: no handlers are registered and nothing else calls WiFi.begin; proved for every sequence of Wi-Fi events.
* C125 A sentence is used however its bytes arrive: False of the code: nothing is kept between reads; proved that a sentence cut anywhere into two reads leaves position, time, availability and timeout unchanged, while in one read it is used.
* C129 Determinant of singular matrices: False of the code: zero pivots are replaced by 1e-20, so every singular matrix without a zero row gets a non-zero determinant; proved that the value is the determinant of a matrix within 1e-20.
* C132 A matrix can be assigned its own transpose: False of the code: A = ~A copies from a view of itself; proved what it leaves (the lower triangle mirrored), which is the transpose only of a symmetric matrix.
* C134 A sparse matrix behaves like a matrix also after zeros or overflow: False of the code: a slot whose value is 0 counts as free, which cuts the probe sequence of other keys; elements that do not fit share one static variable.
* C142 The pitch is right from the start: False of the code: missing samples count as zero while the zero point is taken off in full; with the tube at rest at 30 degrees the first pitch is above 90 degrees. The partial theorem gives the pitch reported for every number of samples below 50.
* C144 Stars synchronised at the same time are both kept: False of the code: there is no lock; one interleaving stores a star with the reference of the other, another loses a star. The partial theorem: without overlap both are kept.
* C145 A star is stored at an orientation the tube had: False of the code: azimuth and altitude are two stores; a star can be stored with the old azimuth and the new altitude. The true part (no interruption) is C143_uninterrupted.
* C152 A malformed sync request is refused: False of the code: a request without any digit is acknowledged with '#' and synchronises the telescope to right ascension 0, declination 0; on a 64-bit host a minus sign gives an angle beyond 10^12 degrees.

## 5. Trusted base

Coq's kernel (also re-checked with `coqchk`); the reading of the C++/TypeScript/Python in the `M_*.v` files; the C/C++ library behaviour
written down in `M_Libc` and in the models (snprintf, strtol, strtof, qsort as "some sorter", std::string::find/substr); the
assumptions about hardware and libraries of section 2. No axioms of our own, no kernel check switched off, no plugins.
The theorems over R use the axioms of `Coq.Reals`; those using Flocq's rounding also `Classical_Prop.classic`.

### What `Print Assumptions` lists, theorem by theorem

D1 = `ClassicalDedekindReals.sig_forall_dec`, D2 = `ClassicalDedekindReals.sig_not_dec`, FE = `functional_extensionality_dep`,
CL = `Classical_Prop.classic` (all from the standard library; no other axiom occurs anywhere).

* **Closed under the global context (no axioms)** (180 theorems): C01_accept_iff_good_frame, C01_only_low_16_bits_matter, C02_any_single_bit_error_rejected, C02_detected_error_patterns, C03_one_check_pair_per_position, C03_stuck_bus_rejected, C04_small_buffer_untouched, C04_layout_and_frame, C04_only_conversions_can_fail, C05_accepts_exactly, C63_header_read_refuted, C64_every_position_encodable_refuted, C34_points_kept, C34_points_distinct, C34_points_sorted, C34_refuses_exactly_duplicates, C65_64th_point_loses_all_refuted, C66_within_180_of_first_refuted, C36_triangles_well_formed, C37_only_triangle_arrays_can_overflow, C67_up_to_three_points_safe_partial, C67_triangle_arrays_overflow_refuted, C39_result_is_function_of_points, C39_uninitialised_read_exactly, C43_type_matches_correction, C43_cleared_means_no_correction, C69_inner_point_rejected_refuted, C46_reference_at_stored_point_refuted, C47_triangulate_idempotent, C47_repeated_sync_changes_nothing, C62_inversion_reads_behind_matrix_refuted, C62_two_point_sync_refuted, C17_accepts_exactly, C17_single_byte_error_rejected, C17_only_verified_sentences_used, C18_missing_marker_rejected_on_device, C18_never_reads_outside_on_device, C70_reversed_accepted_exactly, C70_reversed_rejected_refuted, C71_missing_star_read_out_of_bounds_refuted, C71_missing_dollar_accepted_refuted, C19_rejected_sentence_changes_nothing, C19_buffer_without_sentence_changes_nothing, C21_gsv_values, C22_no_fix_keeps_position, C22_rmc_without_A_keeps_position, C22_gga_quality_0_keeps_position, C72_hemisphere_flags_kept_refuted, C23_enough_separators_safe_partial, C23_short_sentence_read_outside_refuted, C73_milliseconds_refuted, C25_terminates, C25_complete_lines_parsed, C74_line_without_dollar_refuted, C76_year_6771_skips_a_day_refuted, C75_f_mod_below_n_refuted, C08_documented_reply, C08_unknown_request, C08_terminated, C08_position_reply, C09_only_sync_changes_telescope, C09_sync_effect, C10_reads_only_the_request, C10_reads_only_the_request_device, C10_writes_only_the_reply, C10_no_buffer_error, C78_unknown_request_overread_refuted, C11_goto_is_not_nexstar, C12_sync_fields, C77_southern_position_refuted, C16_time, C49_on_exactly_in_windows, C49_ready_leaves_pin, C49_flash_seen, C49_number_of_flashes, C49_millisecond_steps, C80_single_flash_never_seen_refuted, C80_single_flash_seen_partial, C81_pattern_broken_at_wrap_refuted, C81_pattern_until_wrap_partial, C53_float_mean_of_last_50, C59_read_after_write, C59_read_result, C59_other_files_untouched, C59_crash_never_mixes, C83_failed_write_loses_old_data_refuted, C83_crash_loses_old_data_refuted, C83_unopened_write_keeps_data_partial, C14_aligned_after_first_sync, C14_only_syncs_are_acknowledged, C14_reachable_states_sized, C48_not_early, C48_first_not_early, C48_due_task_runs_soon, C50_led_mode, C51_available_iff, C51_polls_exist, C52_rejected_frames_ignored, C54_reset_exactly, C54_confirmation_is_harmless, C54_pass, C55_client_kept, C55_next_client_accepted, C55_others_turned_away, C55_served_is_last_accepted, C56_packet_alone_decides, C58_replies_go_to_the_requester, C84_binary_sync_not_reported_refuted, C84_reset_not_reported_refuted, C85_slow_passes_starve_refuted, C86_garbage_never_times_out_refuted, C86_noise_keeps_gnss_available, C89_read_error_repeats_request_refuted, C90_short_request_uses_stale_bytes_refuted, C95_no_positions_after_nexstar_refuted, C96_position_messages, C57_in_bounds_exactly, C57_published_points, C91_many_points_overflow_refuted, C92_published_points_not_json_refuted, C92_empty_list_is_json_partial, C93_broker_gets_stale_text_refuted, C94_reply_swapped_refuted, C94_only_without_overlap_partial, C61_declinations_dropped_refuted, C97_decoded_exactly, C97_longer_input_raises, C97_any_message, C101_node_reply_exactly, C101_same_as_firmware, C105_alignment_follows_commands, C106_points_are_the_synchronised_ones, C106_points_sorted_and_bounded, C106_correction_always_defined, C106_triangles_well_formed, C107_careful_histories_are_memory_safe, C108_stale_triangles_after_overflow_refuted, C112_network_mode, C112_lasting_network, C113_services, C113_receiver_and_encoder, C113_shipped, C114_start_up_ends, C115_only_usable_services, C116_no_sensor_no_position, C117_no_reset_without_server, C117_reset_as_access_point_refuted, C118_client_reconnects, C119_access_point_stays_refuted, C123_position_in_time, C124_complete_sentences_used, C125_split_sentence_lost_refuted, C125_whole_sentence_used, C126_three_by_three_is_an_instance, C131_transpose, C131_sum_and_difference, C132_self_transpose_result_partial, C132_self_transpose_refuted, C133_sparse_matrix_is_a_matrix, C134_zeroing_loses_another_element_refuted, C134_overflowing_elements_share_a_value_refuted, C137_gnss_telemetry, C137_fits, C138_telemetry, C138_sensor_readings, C139_alignment_message, C140_published_json, C143_every_schedule, C143_uninterrupted, C144_without_overlap_partial, C144_references_swapped_refuted, C144_star_lost_refuted, C145_torn_orientation_refuted, C146_buffer, C146_radius, C151_any_fields, C151_field_values, C152_malformed_accepted_refuted, C152_first_sync_accepted_refuted, C153_gsv_any_count.

* **{D1, FE}** (2 theorems): C88_reading_divisor_refuted, C88_reading_error_partial.

* **{D1, D2, FE}** (69 theorems): C06_value_roundtrip_exact_reals, C06_value_roundtrip_mod_360_when_wrapping, C07_defined_exactly, C07_nexstar_reply_defined_exactly, C35_reference_is_given_mod_360, C66_within_180_of_first_partial, C67_general_position_fits_partial, C39_uninitialised_read_exact_arithmetic, C40_one_point_is_translation, C40_two_points_is_similarity, C40_small_histories_run, C41_triangle_is_mapped_affinely, C42_regular_matrices_inverted, C68_reported_singular_exactly, C68_triangle_reported_exactly_partial, C68_collinear_points_not_reported_refuted, C43_cleared_orientation_unchanged, C44_points_of_triangle_accepted, C44_accepted_exactly, C45_nearest_triangle, C46_one_or_two_points_exact, C46_corner_exact_partial, C62_value_read_is_irrelevant_partial, C20_rmc_values_exact, C21_gga_values_exact, C24_time_of_day_exact, C26_julian_day_exact, C27_sidereal_time_exact, C27_longitude_shifts_degree_for_degree, C28_f_mod_normalises, C28_f_mod_fixes_normalised, C79_southern_location_refuted, C29_hours, C53_mean_of_last_50, C82_start_up_mean_refuted, C82_start_up_mean_partial, C52_heading_is_filtered, C52_heading_range_exact, C52_converges_exact, C87_heading_swings_at_north_refuted, C99_byte_order_unspecified_refuted, C99_swapped_frames_pass_the_check, C60_goto_answered_exact, C60_calibrate_returns_reference, C97_values_exact, C98_pack_exactly, C98_every_sky_position, C102_same_position, C102_decoded_exactly, C38_delaunay, C38_object_delaunay, C103_covered_unless_frame_triangle, C104_hull_is_covered_refuted, C126_inverse_every_size, C127_reported_exactly, C127_result_inverts_a_near_matrix, C128_determinant_of_regular_matrices, C128_determinant_of_reported_matrices, C129_singular_matrices_get_a_nonzero_determinant_refuted, C129_determinant_of_a_near_matrix_partial, C130_decomposition, C131_product, C131_product_assignment, C131_norm_and_trace, C141_zero_points, C146_mean, C146_noise, C151_angles_exact, C152_minus_on_pc_refuted.

* **{D1, D2, CL, FE}** (94 theorems): C06_wire_roundtrip_ieee, C06_decode_is_exact_ieee, C06_message_roundtrip_ieee, C64_southern_sync_then_position_refuted, C20_rmc_values_ieee, C21_gga_values_ieee, C24_time_of_day_ieee, C26_julian_day_ieee, C26_next_day_is_one_more, C27_sidereal_time_ieee, C75_f_mod_nearly_normalises_partial, C12_angles_exact, C13_synced_is_reported, C13_sync_then_position_same_words, C77_southern_position_partial, C15_location_exact, C15_location_float, C79_western_location_refuted, C29_normalised, C30_horizontal_is_where_the_star_stands, C30_equatorial_is_the_star_seen_there, C30_roundtrip_horizontal, C30_roundtrip_equatorial, C31_separation_preserved, C32_sky_turns, C32_shift_together, C32_turns_do_not_matter, C33_zenith, C33_pole, C53_rounding, C52_heading_range_ieee, C52_converges_ieee, C87_heading_swings_at_north_ieee_refuted, C60_goto_answered_ieee, C100_every_computed_position_sent_refuted, C109_same_sky_position, C110_inside_small_triangle, C110_accepted_is_near, C111_corner_accepted, C111_corner_is_inside, C120_one_star_then_relative, C121_star_drifts_with_the_sky, C122_message_carries_the_star, C135_nexstar_client_told_the_star, C136_three_stars, C136_many_stars, C138_direction_told, C141_pitch_is_tilt, C141_pitch_ieee, C142_start_up_pitch_partial, C142_start_up_pitch_refuted, C147_stellarium_told_the_star, C148_equatorial_to_horizontal, C148_horizontal_to_equatorial, C148_round_trip, C148_round_trip_in_degrees, C149_one_star_then_relative, C149_star_drifts_with_the_sky, C149_star_in_degrees, C150_message_carries_the_star, C151_angles_ieee, C154_two_stars, C154_stars_reproduced, C155_triangle, C155_three_stars_reproduced, C156_star_drifts_with_the_sky, C157_star_to_direction, C157_direction_to_star, C157_round_trip, C158_one_star_then_relative, C158_star_drifts_with_the_sky, C159_message_carries_the_star, C160_reply_carries_the_star, C161_two_stars, C161_stars_reproduced, C162_triangle, C162_three_stars_reproduced, C163_star_drifts_with_the_sky, C164_message_carries_the_star, C165_reply_carries_the_star, C166_every_star_is_told, C167_every_star_is_told, C168_named_star_is_answered, C169_one_star_over_tcp, C169_more_stars_over_tcp, C170_position_is_seen_in_the_direction, C170_same_as_the_firmware, C171_position_sent, C171_position_not_sent, C171_every_goto_answered, C172_named_star_is_answered, C172_second_star_is_answered, C173_first_star_by_goto, C173_further_star_by_goto.
