# Formal model of xanthospap/ggnss in Rocq (Coq 8.16.1)

## What this is

`rocq/theories` holds an executable Gallina model of the C++ library in `/repo/src` and of the
point-positioning program `/repo/test/pp_rnx.cpp` built on it, and machine-checked theorems about the model.
`properties.jsonl` lists the English properties (C01...; C59 is not used), `MANIFEST.json` maps each one to its
theorems, and the table below gives for each property what is modelled, how it is proved and the result.

Layout (proofs never in model files):

* `Base.v`, `CNum.v`, `Stream.v`, `B64.v` : outcomes, byte buffers, the libc/libstdc++ functions the code calls,
  rounding to binary64/binary32.
* `Model*.v`  : the functions of the repository, each definition with a comment citing file and lines.
* `Spec*.v`   : small independent specifications (what the English says): texts of files that conform to
  RINEX 3.04, SP3-c/d, ANTEX, Bernese SATELLIT; dates and calendars; nearest doubles; interface-document formulas.
* `Proof*.v`  : lemmas.
* `Properties*.v` : the property theorems, `Print Assumptions` for each, and `Example`s showing that the
  hypotheses are met by concrete, non-trivial cases.

When the faithful model violates the English property, the full statement is kept as `Definition Cnn_full : Prop`, a
theorem `Cnn_..._refuted : ~ Cnn_full` gives a concrete witness traced through the code, and the strongest positive
theorems that do hold carry the suffix `_partial` (or state the exact behaviour instead). The manifest status of such
a property is `partial` and the note says what is false. Theorems named `Cnn_<behaviour>` without suffix under a
partial property describe exactly what the code does where it deviates.

## Modelling decisions

* **Outcomes.** Every function that can misbehave returns `outcome A`: `Val a` (normal return), `Exn` (a C++
  exception propagates), `Term` (`std::terminate`, a failed `assert`: an exception leaves a `noexcept` function),
  `UB` (undefined behaviour: access outside an object, read of an uninitialised byte, cast out of range), `Fuel` (the
  fuel of a loop ran out). Divergence is stated as "`Fuel` for every fuel", termination as "not `Fuel` for some fuel".
* **Builds.** Release build (no `-DDEBUG`) in the `Model*` files; the guards and asserts under `DEBUG` (the default
  flags of `src/Makefile.am`) are modelled for the navigation reader, the observation reader and the orbit functions in
  `ModelDebug`, `ModelDebugObs`, `ModelDebugOrbit` (C86, C97, C98). The program of `test/` keeps its asserts.
  Messages on stderr/stdout, `print_members`, `print_state`, `dummy_print` are not modelled.
* **Characters** are `ascii` (8 bits); plain `char` is signed (x86-64, gcc).
* **Buffers** are `list (option ascii)`; `None` is an uninitialised byte; indices are `nat`. Stale bytes left by an earlier
  `getline` into the same buffer are modelled.
* **libstdc++ streams**: record (content, position, eofbit, failbit); `getline`, `peek`, `seekg`, `tellg`, `clear`, `good`, `eof`,
  open/close as in libstdc++ 11. I/O errors (badbit) and files changing while they are read are not modelled. A
  default-constructed `std::fpos` is 0.
* **Integers.** `int`/`long` are `Z`, with the clamping of `strtol` and truncation to 32 bits where the code truncates;
  signed overflow elsewhere is excluded by the ranges that occur (stated where a hypothesis is needed: C42, C45).
* **Doubles in the readers.** A double is a rational, an infinity or NaN (no sign of zero). `strtod`, `strtof`, sums and products round
  to nearest, ties to even (`B64.v`); `SpecB64` says what nearest means and `b64_nearest`, `b32_nearest` prove that the
  rounding functions do it. ERANGE is reported on overflow and underflow as glibc does. So theorems about observation
  values, SP3 records and times, navigation data, ANTEX offsets are about doubles. Results of
  2^1024 and more become infinities.
* **Exact arithmetic** remains in: the orbit and clock mathematics (`ModelOrbit`,
  `ModelDebugOrbit`: real numbers, stdlib `Reals`); zenith angles, weights and troposphere of the program (`ModelPP`: real
  numbers); the Kalman filter (`ModelKalman`: any real closed field,
  mathcomp matrices instead of Eigen). Rounding is not covered by the theorems about these,
  except for the Keplerian orbit and clock (`ModelFloat`), the GLONASS orbit and clock (`ModelFloat2`) and the vectors of the Kalman filter (`ModelFloat3`), which are remodelled with every operation rounded and any libm that is accurate in
  the sense of `SpecFloat` (C69_doubles, C106-C110), and `gps_ura` (C57_float_*); overflow, NaN, -0 and fused multiply-add are not in that model.
* **errno** : `ModelNav`, `ModelBern` carry it; `ModelObsRnx` and `ModelSp3` take it as 0 at entry, and `ModelErrno`, `ModelSp3Errno`
  remodel the two readers with whatever is in errno (C96, C99). The calendar library is taken not to touch errno.
* **ggdatetime** (dates, MJD, `strptime_*`) is an external library absent from `/repo`: instants are integers (seconds, milli- or
  microseconds since MJD 0) and the text parsers and calendar functions are universally quantified parameters.
  Nothing is assumed of them unless a theorem says so in a hypothesis (`reads_dates strp cal`, `dates_ok`, ...).
* **ggeodesy** (`car2ell`): an arbitrary function. **Eigen**: mathcomp matrices; the inverse of a singular matrix is unspecified.
* Concurrency: the library has no threads; each object is used sequentially.

## What is modelled, and what is not

| file | model | not modelled |
|---|---|---|
| satsys.hpp/.cpp | ModelSatsys, ModelObs (bands) | |
| gnssobs, gnssobsrv .hpp/.cpp | ModelObs, ModelObsText | nothing of substance |
| nvarstr.hpp/.cpp | ModelNvarstr | |
| satellite.hpp/.cpp, rinex.hpp | ModelSatellite | |
| antenna.hpp/.cpp | ModelAntenna | |
| antenna_pcv.hpp/.cpp | ModelAntex (AntennaPco, list) | `dummy_print` |
| antex.hpp/.cpp | ModelAntex, ModelAntexObj | move operations (defaulted, all members movable) |
| bern_utils.hpp/.cpp | ModelBern | move operations |
| obsrnx.hpp/.cpp | ModelObsRnx, ModelMove, ModelErrno, ModelDebugObs | `print_members` |
| sp3c.hpp/.cpp | ModelSp3, ModelSp3Errno | `print_members`; `LagrangeSp3Interpolator` beyond its constructor (which is undefined behaviour for every file, C63) |
| navrnx.hpp/.cpp | ModelNav, ModelDebug (reading, times), ModelOrbit, ModelDebugOrbit (orbits, clocks) | move operations |
| gpsnav, galnav, bdsnav, glonav .cpp | ModelOrbit, ModelNav, ModelGal | |
| gauss_newton.hpp | ModelKalman, ModelFloat3 | `evaluate_jacobian_init`, `make_dummy_P` (private, never called), `print_state` |
| test/pp_rnx.cpp | ModelApp (message cache), ModelPP (numerics, loop), ModelMain (main) | output |
| navcmp.cpp | none | not in `Makefile.am` and does not compile |
| other files of test/ | none | drivers that print |

## Properties: model, proof, result

| id | property | files | how it is proved | result |
|---|---|---|---|---|
| C01 | Satellite-system letter codec | PropertiesText | Case analysis over the 8 systems and all 256 chars. | proved |
| C02 | Observation codes survive printing and re-parsing | PropertiesText | `to_string` over decimal printing of Z, parser over buffers; round-trip lemma for bands 0-9; witness for other bands kept beside it. | proved |
| C03 | Which strings name an observation code | PropertiesText | Characterisation by case analysis on the first three bytes, for C strings of every length. | proved |
| C04 | Equality of observables is an equivalence | PropertiesText | operator== as the two-loop search it is; full statement refuted with duplicated parts; equivalence proved for duplicate-free observables. | partial: The full statement is false of the code: operator== is not symmetric when a part is repeated (and not reflexive with a NaN coefficient). Proved: refutation with witness; equivalence on duplicate-free observables. |
| C05 | Mixed-system detection | PropertiesText | Induction over the parts. | proved |
| C06 | Frequency of a linear combination | PropertiesFreq | Evaluation relation on nearest doubles and error bound by induction over the parts; Term iff some band is not listed. | proved: IEEE rounding included; the value for at most 2^50 parts and a sum of absolute contributions up to 2^990 MHz. |
| C07 | Trimming functions | PropertiesText | Pointer loops over buffers; induction; specification by prefix/suffix decomposition. | proved |
| C08 | Fortran exponent rewriting | PropertiesText | Induction over the buffer. | proved |
| C09 | Receiver antenna names | PropertiesAntenna | 41-byte buffers with uninitialised bytes; safety by invariant over operation sequences. | proved |
| C10 | Radome defaults to NONE only when absent | PropertiesAntenna | Decomposition of the copied name; refuted for 20-char strings with blank radome. | partial: The full statement is false of the code: a 20-character name with blank radome columns keeps the blanks, and a 17-19 character name loses its radome characters to NONE. The exact behaviour is proved. |
| C11 | Antenna serial numbers | PropertiesAntenna | has_serial iff; compare_serial refuted for short serials, exact condition proved. | partial: compare_serial(s) after set_serial_nr(s) is false for every serial shorter than 20 characters; has_serial part proved in full, exact compare_serial condition proved. |
| C12 | Same receiver antenna | PropertiesAntenna | Invariant over operation sequences, strncmp characterisation. | proved |
| C13 | Satellite antenna comparison | PropertiesAntenna | is_same refuted (inverted); to_string round trip. | partial: SatelliteAntenna::is_same returns the negation of the documented result; proved exactly so. |
| C14 | Satellite names identify satellites | PropertiesText | Decimal printing injective. | proved |
| C15 | Two-digit years | PropertiesText | Integer arithmetic. | proved |
| C16 | Observation-type table of the header | PropertiesObs | Writer specification for OBS TYPES blocks, parser model over streams; induction over lines; refuted for n = 13k. | partial: False for a number of codes that is a multiple of 13 (the reader then takes one more line); proved exactly for all other counts, and the multiple-of-13 behaviour is proved. |
| C17 | Observation-type table: what success means | PropertiesObs | Loop invariant on (resolved, vecsz). | proved: for every line, stream state and table |
| C18 | Epoch header line | PropertiesObs | Line parser; safety for every buffer; oracle for the date; refuted for malformed count. | partial: The count field is read with a checker that lets non-numbers pass, and reads can leave a line without terminator; conforming lines are proved exact. |
| C19 | Observation fields are decoded column-exactly | PropertiesObs | Field decoder by strtod scanning; refuted: the number runs on into a digit of the LLI column; exact value proved for every such field, and exactness with a blank LLI. | partial: A digit in the loss-of-lock column is glued to the number (refuted, and the error is proved exactly); with a blank LLI column everything is exact. |
| C20 | The read plan addresses the right columns | PropertiesObs | Induction over requests; plan correctness against header table. | proved |
| C21 | Missing and mixed requests | PropertiesObs | Same model; filter specification. | partial: A request with a part missing from the header before a part of another system is treated as missing, not as mixed; the exact rule is proved. |
| C22 | The line buffer fits every record the header allows | PropertiesObs | Arithmetic about max_obs*16+4 and getline; refuted for few observables, exact condition. | partial: False for epoch lines when the header has one observation type (and for lines with clock offset when fewer than four); proved otherwise. |
| C23 | Values collected for a satellite | PropertiesObs | Loop over the plan; refuted (a missing part followed by a present part); partial positive theorem. | partial: A present field after a missing one is added to the missing value; the exact value is proved for every line and plan, and equality with the intended one when no present field follows a missing one. |
| C24 | Satellite numbers are validated | PropertiesObs | strtol on two chars: complete characterisation. | partial: Other spellings are accepted; the exact accepted set is proved, and exactness for conforming columns. |
| C25 | An epoch yields the requested satellites in file order | PropertiesObs | Loop over the record lines of a stream; out-of-range write when more satellites than entries. | partial: Undefined behaviour when the epoch has more satellites than the output vector; otherwise proved. |
| C26 | Epoch reading reports end of file and errors distinctly | PropertiesObs | Return code case analysis; refuted for the last epoch without trailing newline. | partial: False for a last line without newline (-1 although the epoch was delivered) and for a failed stream (0 for ever); all other parts proved. |
| C27 | SP3 flag set algebra | PropertiesSp3 | Bit operations; induction over operation sequences. | proved |
| C28 | SP3 position records | PropertiesSp3 | Line decoder on 80-column lines, written decimals through `b64`; short lines: stale bytes of the buffer. | partial: False for lines shorter than 80 columns: event flags come from the previous contents of the line buffer (proved exactly); lines with all columns are proved exact for every buffer and flag. |
| C29 | SP3 predicted orbits are flagged | PropertiesSp3 | Refuted by a literal line (the code tests for E); exact flag for every column content. | partial: The code looks for E instead of P in column 80; proved exactly. |
| C30 | SP3 epoch reading terminates and stays in bounds | PropertiesSp3 | Stream loop with decreasing remaining input; bounds refuted when the file has more P lines than the header declares. | partial: False: no EOF line -> never returns; more records than the vector -> out of bounds write. Proved: these two for all such files; exact delivery otherwise; on 0 the count and stream position for any content. |
| C31 | ANTEX: closest antenna | PropertiesAntex | Fold over antenna records of a file. | partial: Refuted as stated: an absent antenna is reported with 0, and a file without blocks reads an uninitialised status. Exact match, last plain record and termination are proved. |
| C32 | ANTEX: an unknown antenna yields no phase-centre offsets | PropertiesAntex | Return code analysis; uninitialised status refutation. | partial: Proved without must_match_serial (non-empty files); refuted with it: 10 is returned also when the model is absent. |
| C33 | ANTEX: skipping to the end of an antenna | PropertiesAntex | Bounded loop; position characterisation. | partial: Refuted: a short or missing first line is compared on uninitialised bytes. Bound of 5000 lines and position proved. |
| C34 | ANTEX: validity interval of satellite antennas | PropertiesAntex, PropertiesAntex3 | Date oracle; interval test. | partial: The interval is proved exact for blocks with a START OF FREQUENCY line; without one (and without both dates) the check never returns. |
| C35 | ANTEX: phase-centre offsets | PropertiesAntex | Nested loop over frequencies. | partial: Exact on well-formed blocks and count proved on any content; refuted: malformed north/east/up kills the process. |
| C36 | ANTEX: satellite identity is not inherited | PropertiesAntex | Stale svn/cospar refutation; positive part. | partial: Identity and validity proved; refuted: SVN and COSPAR of an earlier block leak, and the line buffer is read uninitialised. |
| C37 | Bernese channel lookup | PropertiesBern | Loop over records; first match. | partial: Exact answer proved on well-formed files for every SVN and epoch; refuted: errno left at ERANGE makes the first MW record unreadable, and an empty part 2 reads uninitialised memory. |
| C38 | Navigation block geometry | PropertiesNav | Line counting in parsing and skipping; both end at the same stream position. | partial: Agreement of read and ignore proved for all contents; false only for the letter M, which ignore_next_block accepts without consuming anything. |
| C39 | Navigation block decoding | PropertiesNav | Slots written as function of block; stale slot refutation. | partial: Decoding proved for all conforming blocks but IRNSS, for every previous frame; slots without a number keep previous contents; IRNSS blocks, blank GPS fit fields and a stale errno are refused (each proved in general). |
| C40 | Peeking does not consume | PropertiesNav | Stream position invariance. | partial: False for byte 0xFF and for a failed stream; otherwise exact. |
| C41 | Finding the next message | PropertiesNav | Induction over the stream; first matching block; divergence for every fuel when M is met. | partial: Soundness, first match, -1 and rewind proved; termination proved when no line starts with M, refuted otherwise. |
| C42 | Finding a valid message for an epoch | PropertiesNav | Loop with validity test; PRN -1 refuted. | partial: Soundness for all files (except GPS fit fields below -596523 h, which wrap), exact search on conforming files; the PRN wildcard never matches. |
| C43 | Fit intervals and health | PropertiesNav | Case analysis. | partial: Values proved; a GPS fit field of 0 makes a message valid at no epoch. |
| C44 | Time of ephemeris | PropertiesNav | Integer week arithmetic. | partial: Week instants proved for GPS, Galileo, BeiDou; GLONASS uses the week of the time of clock, which is the nearest instant exactly when within half a week. |
| C45 | Referring epochs to ToE / ToC | PropertiesNav | Day/second arithmetic. | proved: For day differences that fit an int. |
| C46 | Kepler's equation is solved | PropertiesOrbit | Banach contraction over R. | proved: Doubles are real numbers in this model. Success is proved for every eccentricity up to 0.96. |
| C47 | Orbit geometry | PropertiesOrbit | Rotation algebra over R. | proved: Doubles are real numbers in this model; agreement with the interface document formulas and constants for 0 <= e < 1. |
| C48 | Satellite clock | PropertiesOrbit | Algebra over R. | partial: The formula, bound and circular case are proved, but E is computed with the time since ToC instead of ToE; refuted as the anomaly at that instant, with a proved error bound. |
| C49 | GLONASS propagation reaches the requested instant | PropertiesOrbit | Refuted (fixed 60 s steps overshoot); number of steps by induction, same state for all instants of a minute. | partial: The last step is never shortened: proved that the state is that of the next whole minute, identical for all instants of a minute; beyond half a day the broadcast state is returned. |
| C50 | GLONASS propagation is bounded | PropertiesOrbit | Loop invariant, termination measure. | proved: Doubles are real numbers in this model. |
| C51 | GLONASS clock | PropertiesOrbit | Rounding lemma over R. | proved: Doubles are real numbers in this model; C109_clock has the rounded evaluation. |
| C52 | Kalman covariance stays symmetric | PropertiesKalman | mathcomp matrices: transposition algebra, induction over updates. | proved: Exact arithmetic (any real closed field). |
| C53 | Moving an observation reader | PropertiesObs2 | Heap of buffers with alloc/free; defaulted move copies the raw pointer: double free trace. | partial: The defaulted move operations copy the raw buffer pointer: proved double free and leak; histories without moves are proved correct. |
| C54 | Header fields of an observation file | PropertiesObs2, PropertiesObs3 | Header loop over lines; refuted (second line skipped, names cut at first blank). | partial: The second line of the file is never interpreted and a short line is taken under the label of the previous one; conforming headers with any second line are proved exact, and a header with an unreadable position, antenna offset, clock flag or start time is refused. |
| C55 | Rewinding | PropertiesObs2 | seekg/clear semantics; exact condition. | partial: rewind() does not clear failbit; proved for every history whose stream is not failed, and after end of file. |
| C56 | Crash-freedom of the noexcept readers | PropertiesObs2 | Witness inputs giving Term, per function; positive theorems for functions that never terminate. | partial: Observation files: a header truncated after an OBS TYPES line terminates the program; proved that this (or an unknown system letter) is the only way and that reading epochs never does. |
| C57 | GPS accuracy index | PropertiesFloat, PropertiesOrbit | Case analysis on the index; in floats: error bounds of the roundings, then computation of the 15 values; monotonicity of rounding. | partial: In floats and doubles too (C57_float_*: the float nearest to the tabulated value, for any pow within 2^-50; monotone for any monotone one). As a function of the index everything is proved; but RINEX stores metres in that slot, for which the result is wrong (refuted). |
| C58 | Antenna radome of an observation file | PropertiesObs2 | Exact content of the antenna after every ANT line; literal witness. | partial: The radome is dropped for every antenna. |
| C60 | Every written observation is delivered | PropertiesObs2 | Field decoder over all written F14.3 numbers; the only collision is the sentinel. | partial: The number -999.990 is indistinguishable from a missing field; proved exactly. |
| C61 | A conforming observation file is delivered whole | PropertiesObs2 | Writer specification of a whole file (header, epochs, records); induction over epochs, using C16, C20, C23, C25. | proved |
| C62 | SP3 headers are read exactly | PropertiesSp3 | Writer specification of the 22+ header lines; line-by-line symbolic execution; literal witness for the agency. | partial: The fourth column of the agency is dropped; all other members proved exact. The calendar is a parameter. |
| C63 | SP3 interpolator can be constructed | PropertiesSp3 | Trace of the constructor: indexing of an empty vector for every conforming file with satellites. | partial: The constructor indexes an empty vector: undefined for every conforming file. |
| C64 | Whole SP3 files are delivered | PropertiesSp3 | Writer specification; induction over the epochs with C28 and C30. | proved |
| C65 | Navigation headers | PropertiesNav | Induction over header lines (writer specification); soundness and codes by case analysis on every stream. | proved: Conforming headers with lines of at most 84 characters and at most 999 lines; soundness and return codes for all files. |
| C66 | Whole navigation files are delivered | PropertiesNav | Writer specification of blocks per system; induction over the blocks with C39. | proved: IRNSS blocks excluded (see C39). |
| C67 | Malformed navigation blocks are errors | PropertiesNav | Symbolic execution of the reader on truncated streams; literal witnesses for the rest. | partial: Files ending within a block are refused; unknown letters and bad dates end the program, short first lines are undefined behaviour, cut orbit lines are accepted (C67_cut_line_refuted). |
| C68 | GLONASS equations of motion | PropertiesOrbit | Right-hand side equals the interface-document equations by algebra over R; one Runge-Kutta step equals the textbook step, induction over steps. | proved: Doubles are real numbers in this model. |
| C69 | stateNclock | PropertiesFloat2, PropertiesOrbit, PropertiesOrbit2 | Composition of the state and clock functions, case analysis on the system and the status; in doubles by the interval and error calculus of C107, fed with the rounded difference of the two dates. | proved: Doubles are real numbers in this model, except in C69_doubles: from the date to the state of GPS, Galileo and BeiDou with every operation rounded. The anomaly in the clock is the one of C48. |
| C70 | GLONASS state at the ephemeris epoch | PropertiesOrbit | Zero steps at the ephemeris epoch; unit conversions over R. | proved: Together with C39_decode_partial. |
| C71 | BeiDou geostationary satellites | PropertiesOrbit | Rotation algebra over R; a concrete geostationary message refutes. | partial: The GEO rotations are missing: refuted for PRN 1-5, proved for the others. |
| C72 | Kalman covariance is positive | PropertiesKalman | mathcomp: positive semidefinite quadratic forms, induction over updates; invertibility of the innovation covariance. | proved: Exact arithmetic. |
| C73 | Kalman update without weights | PropertiesKalman | Zero column of the Jacobian gives a kernel vector of S; rank argument for five or more rows. | partial: Refuted: with five or more satellites and no weights the residual covariance is always singular (the drift column of the Jacobian is zero). When defined, the fit is proved exact. |
| C74 | Kalman Jacobian | PropertiesKalman | Second-order bound on the deviation from the linearisation (tangent inequality of the square root); witness for a coefficient other than 1. | partial: Proved for coefficient 1; refuted for others (the predicted clock term is not scaled). |
| C75 | Satellite order is immaterial | PropertiesKalman | Permutation matrices: H, residuals and weights conjugated; gain and update invariant. | proved: Exact arithmetic. |
| C76 | Kalman gain is optimal | PropertiesKalman | Completion of squares: any other linear gain has a larger covariance. | proved: Exact arithmetic. |
| C77 | Kalman motion model | PropertiesKalman | Matrix algebra of the transition and of the measurement counts. | proved: Exact arithmetic. |
| C78 | ANTEX: lookups do not depend on earlier lookups | PropertiesAntex | Induction over histories of lookups with the invariant "stream not failed". | partial: Proved on well-formed files for every history; refuted in general (an overlong line leaves failbit set). |
| C79 | ANTEX: header | PropertiesAntex | Symbolic execution of the header reader for a header of any length; refusals by case analysis on the offending line. | partial: Refuted only by short first lines (uninitialised read). |
| C80 | Bernese lookups do not depend on history | PropertiesBern | Induction over histories; exact condition on the end of part 2. | partial: Proved for files whose part 2 is ended by a line; refuted for files ending with the last record (failbit stays set). |
| C81 | Opening a SATELLIT file | PropertiesBern | Symbolic execution of the constructor; literal witness for the truncated file. | partial: Acceptance, soundness and rejections proved; refuted: a file cut after the column titles is accepted with position -1. |
| C82 | The message cache of the point-positioning program | PropertiesApp, PropertiesApp2 | Invariant of the cache over histories of lookups, with C41/C42 for the search. | proved: test/pp_rnx.cpp get_valid_msg, for every history of lookups; the success theorem is on well-formed files in which no message of the satellite lies more than four hours ahead. |
| C83 | The most recent usable message is used | PropertiesApp | Origin invariant of the cache; two-message file as witness. | partial: Refuted: the first usable message of the file is delivered, not the most recent. Origin of every cached message proved, and exactness when one message is usable. |
| C84 | One ANTEX object for several files | PropertiesAntex2, PropertiesAntex4 | Invariant over histories of switches and lookups on a file system. | proved: For every history of switches (also failing ones) and lookups. |
| C85 | The text of an observable | PropertiesText2 | Decimal printing with six decimals; injectivity; literal witness. | partial: Refuted: coefficients are cut to six decimals (and an emptied observable is undefined behaviour). Proved for coefficients with at most six decimals. |
| C86 | Debug and release builds read alike | PropertiesDebug | Simulation between the two builds with fuel, on every stream; literal witnesses. | partial: Refuted: a time of ephemeris with a fraction of a second aborts the debug build only, and a file whose last line has no newline ends searches with another code. Proved: alike on every stream whose last line is complete unless the debug build stops; equal on conforming files with whole seconds. |
| C87 | Rewinding after any use | PropertiesRewind | Invariant "failbit clear" over histories of calls; literal witnesses. | partial: Refuted: a call after the EOF line, or a block cut short, sets failbit and rewind does nothing. Proved for every history that leaves failbit clear, in particular after every epoch or block delivered, after the end of the file and after every search. |
| C88 | Each measurement goes to the filter with its own satellite | PropertiesPP, PropertiesPP4 | Invariant of the loop over the satellites of an epoch; the source of each measurement is tied to the file by an independent relation. | partial: Refuted: if a message cannot be evaluated (Kepler iteration without convergence) the status is ignored and the observation goes with the position of the satellite before it. Proved when the messages of the file are plausible (GLONASS, or eccentricity 0 to 0.96); for any file with the state unspecified for implausible messages. |
| C89 | An epoch without usable satellites is skipped | PropertiesPP | Case analysis on the number of satellites and of usable ones. | partial: Refuted: five or more satellites of which none is usable end the program by assertion. Proved for up to four satellites; with five or more the only ways not to reach the filter are the assertion and the exception for a satellite far below the horizon. |
| C90 | Any number of satellites in an epoch | PropertiesPP | Bound on the number of measurements carried through the loop. | partial: Refuted: more than 30 usable satellites overrun the arrays. Proved for up to 30. |
| C91 | Zenith angles are geometric angles | PropertiesPP2 | Geometry over R: cosine of the angle, Cauchy-Schwarz, `acos`. | proved: Real arithmetic; the ellipsoidal coordinates are an arbitrary function (ggeodesy is external). |
| C92 | Low satellites get less weight | PropertiesPP2 | Field identity over R. | partial: Refuted: 1/cos(a)*cos(a) is 1. Proved: every weight is 1. |
| C93 | Tropospheric delay of Saastamoinen | PropertiesPP2 | Elementary bounds over R; the pole by its denominator. | partial: Refuted: temperature in Celsius and a missing factor remove the wet part (at least 3 cm at sea level) and put a pole at 2769 m. Proved: equal to the dry formula within 1e-7 m, positive and increasing, for heights 0 to 2000 m and the mask of 80 degrees. |
| C94 | A run handles every epoch once and in order | PropertiesPP3 | Induction over the epochs of the file with C61 and C89. | partial: Refuted: an observation file without epochs makes the program read an unset variable. Proved for files with at least one epoch (up to the two ways C89 names to end the program), and for any files if main returns. |
| C95 | The filter is told the elapsed time | PropertiesPP3 | Trace of the time argument through the loop; arithmetic on instants. | partial: Refuted: the second of the day is handed over instead. Proved: exactly which value is handed over, and that it is the elapsed time only if the epoch before is midnight of the same day. |
| C96 | Reading a file does not depend on what the program did before | PropertiesErrno | Readers remodelled with errno; commuting lemma with the errno-free model; witness histories. | partial: Refuted: errno left over from anything (a file that does not exist is enough) makes the next conforming observation file be refused, and with coordinates in the header all that follow; an epoch line is lost in the same way and no navigation record is delivered. Proved for programs in which every file opened exists and is accepted: everything is then read as in a fresh program. The calendar library is assumed not to touch errno. |
| C97 | Debug and release builds read observation files alike | PropertiesDebug2 | Simulation: the debug reader equals the release reader or stops at an assert; exact condition. | partial: Refuted: a negative satellite count, or more satellites than the vector holds even if none of them is asked for, ends the debug program where the release program reads the epoch. Proved: for any object, plan and vector the debug build gives the same result or stops; exactly when it stops; after a conforming epoch line it never writes outside the vectors whatever follows; conforming files are read alike. |
| C98 | No state far from the ephemeris | PropertiesDebug3 | Guards of the debug build over R; release build has none. | partial: Refuted for the release build, which gives a GPS, Galileo or BeiDou position at any distance. Proved for the debug build, for GLONASS in both builds, and that the builds agree within half a week of both reference times; far from the time of clock alone the debug build returns -1 with the position written. |
| C99 | Reading an SP3 file does not depend on what the program did before | PropertiesSp3Errno | As C96 for the SP3 reader, over histories. | partial: Refuted: ERANGE left in errno, which a file refused with code 22, 24 or 30 may leave, makes the next conforming SP3 file be refused (code 11; the attempt clears errno, so the one after succeeds); a whole epoch is lost in the same way. Proved: with any other value of errno everything is read as in a fresh program and errno is not touched on success; a program that opens only acceptable files never sees ERANGE. The calendar library is assumed not to touch errno. |
| C100 | SP3 times keep their microseconds | PropertiesRound | Rounding error of `b64` on decimals with eight digits; integer arithmetic on truncation. | partial: False for every field: "1.00100000" is read as 1000999 microseconds (C100_full_refuted). Proved for all F11.8 fields: the microseconds are the written ones or one less, one less only for a whole number of microseconds; exact for every multiple of 1/64 s (whole, half, quarter seconds). The same for the interval of the header. |
| C101 | SP3 headers with consistent dates are opened | PropertiesRound | Residues of the second of day modulo 675 (ties of b64 on day fractions); literal witnesses. | partial: False: starts at 6.2 s (code 24), at 1.001 s (code 22) and at the whole second 00:03:19 of 2040-01-01 (code 24) are refused although both header lines give the same instant. Proved: starts at whole seconds are accepted for MJD 32768-65535, from MJD 65536 on those at multiples of 5 seconds; any calendar function, library values correctly rounded. |
| C102 | SP3 records in terms of the written decimals | ProofB64, PropertiesRound | C28 with the written decimals; nearest-double specification `SpecB64` proved for the rounding functions. | proved: Lines of 80 columns (shorter lines: C28); the orbit-prediction mark is the one the code looks for (C29). b64_nearest, b32_nearest: the rounding functions of the model are round to nearest, ties to even, in the sense of SpecB64. |
| C103 | The point-positioning program reads its files | PropertiesMain | Refusal of the mixed-system request in `set_read_map` for every header, then composition of the constructors. | partial: Refuted: the request combines a GLONASS and a GPS code, which set_read_map always turns down; proved for all files that the program ends with 100 without reading an epoch (C94 and the like are about the loop that would follow). |
| C104 | Satellites listed from an ANTEX file | PropertiesMain | Induction over the blocks of the file; the buffer is uninitialised at the first comparison. | partial: Refuted: the line buffer of the search is read before it is written. Proved exact when that buffer happens to hold a text. |
| C105 | Accuracy and issue of data of a Galileo message | PropertiesGal | C39 decoding of the block, then conversion to float and to int. | proved: Galileo blocks conforming to RINEX 3.04 table A8, whatever the frame held before; float and double rounding included. |
| C106 | Kepler's equation in machine doubles | PropertiesFloat | Contraction with a rounding term per step (bounded by the exponent of the sum), 40 to 250 steps; distance to the root by monotonicity. | proved: Doubles rounded to nearest (B64), every operation; the sine is any function within 2^-53 of the real one on doubles. Beyond these ranges (e.g. 0.2 at more than 63 rad) the spacing of doubles exceeds the limit and nothing is claimed. |
| C107 | Broadcast positions in machine doubles | PropertiesFloat | Interval and error propagation, one lemma per operation (sum, product, quotient, root, sine, cosine, atan2 of an inexact unit vector), bounds computed by the kernel; four subranges of sqrt(A). | proved: Finite doubles, each operation rounded on its own; sqrt, sin, cos, atan2 are any functions accurate as SpecFloat says (shown to exist). Ranges of the ephemeris: SpecFloat.broadcast. |
| C108 | Satellite clocks in machine doubles | PropertiesFloat | As C107. | proved: As C107. E is the anomaly for the time since ToC, as the code has it (C48 says how far that is from the time since ToE). |
| C109 | GLONASS orbit and clock in machine doubles | PropertiesGloD, PropertiesGloD2 | A box (displacement, speed, errors) around the exact state is carried through the stages of a Runge-Kutta step by the interval and error calculus of C107; that fifteen steps stay within the bounds is a closed computation, left as the hypothesis boxes_hold. The distance from the geocentre stays bounded away from zero by Cauchy-Schwarz; loop times are whole numbers, exact in doubles. | partial: Missing: the closed computation boxes_hold (the error boxes of fifteen Runge-Kutta steps stay within the bounds), a hypothesis of the theorems with _partial: vm_compute gives true, but coqchk, which has no virtual machine, does not finish it. C109_clock and C109_late are unconditional. C109_orbit_partial takes the double that ref2toe returns, C109_date_partial starts from the date (within 899 s of ToE). The seconds of day of ToE are whole. The integration steps are those of the code: fixed steps of 60 s, so the state is that of the next whole minute after ToE (C49). C109_late: beyond 15 minutes (and a millisecond) no status 0 and no clock. Assumes of libm only an accurate sqrt. |
| C110 | Predicted pseudoranges, residuals and Jacobian in machine doubles | PropertiesKalD | The interval and error calculus of C107; the lower bound of the range comes from the stated distance, not from the intervals. | proved: The vectors built by update before its linear algebra; Eigen computes the rest in an order of operations that is not in /repo, so it is modelled over the reals only (C71-C76). Ranges: SpecKalD. Assumes of libm only an accurate sqrt. |

## Trusted base

* The kernel of Coq 8.16.1 (and `coqchk`); no `native_compute`; `vm_compute` is used in examples, refutation witnesses and
  decisions on literals.
* The faithfulness of the model to `/repo` by reading (nothing is run), and the modelling decisions above: the models of
  libc and libstdc++ in `Base`, `CNum`, `Stream`, of IEEE rounding (`B64`, proved against `SpecB64`), exact arithmetic where said.
* What `Print Assumptions` lists for each theorem of the manifest (it is also printed by the build):

**Closed under the global context** (344 theorems): all theorems not named below.

Axioms of the standard library: `ClassicalDedekindReals.sig_forall_dec`, `ClassicalDedekindReals.sig_not_dec`, `Classical_Prop.classic`, `FunctionalExtensionality.functional_extensionality_dep` (73 theorems): `C103_always_100`, `C103_conforming`, `C103_exit_codes_partial`, `C103_files_partial`, `C103_full_refuted`, `C106_half`, `C106_medium`, `C106_turn`, `C107_position`, `C108_clock`, `C109_both_partial`, `C109_date_partial`, `C109_orbit_partial`, `C110_jacobian`, `C110_predicted`, `C110_residuals`, `C46_contracts`, `C46_residual`, `C46_root`, `C46_succeeds`, `C47_defined`, `C47_position`, `C47_radius`, `C47_slots`, `C48_defined`, `C48_error_partial`, `C48_full_refuted`, `C48_value`, `C57_float_monotone`, `C57_float_table`, `C57_metres_refuted`, `C57_monotone`, `C57_table`, `C57_unusable`, `C69_doubles`, `C69_glonass`, `C69_kepler`, `C69_others`, `C69_status`, `C70_at_toe`, `C71_full_refuted`, `C71_not_geo_partial`, `C88_any_file_partial`, `C88_full_refuted`, `C88_partial`, `C89_aborts`, `C89_few_partial`, `C89_full_refuted`, `C89_many_partial`, `C90_full_refuted`, `C90_partial`, `C91_angle`, `C91_angles`, `C91_sv_zen_angle`, `C93_dry_partial`, `C93_full_refuted`, `C93_monotone`, `C93_pole`, `C93_too_dry`, `C94_any_file_partial`, `C94_full_refuted`, `C94_no_epochs`, `C94_run_partial`, `C95_full_refuted`, `C95_partial`, `C95_second_of_day`, `C98_debug`, `C98_far_toc`, `C98_far_toe`, `C98_full_refuted`, `C98_glonass`, `C98_release_unlimited`, `C98_same`.

Axioms of the standard library: `ClassicalDedekindReals.sig_forall_dec`, `ClassicalDedekindReals.sig_not_dec`, `FunctionalExtensionality.functional_extensionality_dep` (17 theorems): `C110_measured`, `C46_fails_iff`, `C46_stops`, `C48_bound`, `C48_circular`, `C49_at_toe`, `C49_day_wrap`, `C49_error`, `C49_full_refuted`, `C49_reached_partial`, `C49_same_minute`, `C50_bounded`, `C50_time`, `C68_integrates`, `C68_motion`, `C92_full_refuted`, `C92_partial`.

Axioms of the standard library: `ClassicalDedekindReals.sig_forall_dec`, `FunctionalExtensionality.functional_extensionality_dep` (5 theorems): `C109_clock`, `C109_late`, `C51_clock`, `C51_half_day`, `C88_observed_text`.

No axiom is declared in `rocq/theories`; the axioms above are those of `Coq.Reals` (real numbers) and come in with its definitions.
mathcomp, used for the filter (C52, C72-C77), adds none.

## Wrong programs

`seeded/LOG.jsonl` records the edits of the model that were tried (wrong boundary, missed case, swapped argument, dropped
update, ...), the claim each one breaks, the theorems that failed and, where none did at first, the theorem that was tightened.
