{"id": "C01", "title": "Satellite-system letter codec", "statement": "satsys_to_char followed by char_to_satsys returns the same system for all eight systems; char_to_satsys accepts exactly the letters G R S E C J I M, is the inverse of satsys_to_char on them, and throws std::runtime_error for every other char, including NUL and bytes >= 0x80.", "quantifier": "all systems and all 256 char values", "why_tests_cant": "the claim is about every byte, most of which no test feeds in", "anchors": ["src/satsys.cpp:satsys_to_char", "src/satsys.cpp:char_to_satsys"]}
{"id": "C02", "title": "Observation codes survive printing and re-parsing", "statement": "For every ObservationCode whose type is not 'any', whose band is 0..9 and whose attribute is neither blank nor NUL, ObservationCode(code.to_string().c_str()) equals the code, and to_string has exactly three characters. Two such codes print alike only if they are equal. Outside this range printing is lossy: distinct codes with bands >= 10 print the same text, and a code of type 'any' prints a text the constructor rejects.", "quantifier": "all observation codes (type, int band, char attribute)", "why_tests_cant": "bands are ints and attributes arbitrary chars; only a proof covers all and delimits the safe range exactly", "anchors": ["src/gnssobs.cpp:ObservationCode::ObservationCode", "src/gnssobs.cpp:ObservationCode::to_string", "src/gnssobs.hpp:ObservationCode::operator=="]}
{"id": "C03", "title": "Which strings name an observation code", "statement": "ObservationCode(str) throws iff str has fewer than two characters or its first character is not one of C L D S I X. Otherwise it depends only on the first three characters: the band is the numeric distance of the second char from '0' and a missing or blank third character gives the wildcard attribute '?'. Nothing forces the band to be a digit.", "quantifier": "all C strings of any length and content", "why_tests_cant": "string length and content are unbounded", "anchors": ["src/gnssobs.cpp:ObservationCode::ObservationCode", "src/gnssobs.cpp:char_to_observabletype"]}
{"id": "C04", "title": "Equality of observables is an equivalence", "statement": "operator== on GnssObservable is reflexive, symmetric and transitive and ignores the order of the parts.", "quantifier": "all observables, i.e. all finite lists of (system, code, coefficient) parts", "why_tests_cant": "symmetry fails only for lists with repeated parts, which example tests do not contain; the positive half needs induction over lists", "anchors": ["src/gnssobsrv.cpp:GnssObservable::operator==", "src/gnssobsrv.hpp:__ObsPart::operator=="]}
{"id": "C05", "title": "Mixed-system detection", "statement": "is_of_mixed_satsys() returns true iff two parts of the observable belong to different satellite systems; it does not depend on the order of the parts and is false for an empty observable.", "quantifier": "all observables", "why_tests_cant": "needs a statement over lists of every length", "anchors": ["src/gnssobsrv.hpp:GnssObservable::is_of_mixed_satsys"]}
{"id": "C06", "title": "Frequency of a linear combination", "statement": "GnssObservable::frequency() is the sum, computed from left to right in doubles, of coefficient times the nominal band frequency of its parts (GLONASS and mixed parts contribute 0), and differs from the exact sum by no more than the rounding of n additions; adding a part adds its contribution. It completes only if every part's band is listed for its system; otherwise the program terminates, because the lookup throws inside a noexcept function.", "quantifier": "all observables with any bands and coefficients (for the value: finite coefficients whose combination is not near the largest double)", "why_tests_cant": "the failing bands form an infinite set and a test that hits one kills the test process", "anchors": ["src/gnssobsrv.hpp:GnssObservable::frequency", "src/gnssobsrv.cpp:__ObsPart::frequency", "src/satsys.cpp:frequency_map"]}
{"id": "C07", "title": "Trimming functions", "statement": "rtrim with the 'End' policy returns the longest prefix (of the string cut at stop) that does not end in a blank; rtrim with the default 'Start' policy returns the part before the first blank; ltrim drops exactly the leading blanks. In each case the reported index is the cut position and the pieces reassemble to the input. string_is_empty is true iff the considered part consists of blanks only. rtrim is idempotent.", "quantifier": "all C strings and all stop values", "why_tests_cant": "string content and length are unbounded", "anchors": ["src/nvarstr.cpp:StrSearchPolicyEnd::rtrim", "src/nvarstr.cpp:StrSearchPolicyStart::rtrim", "src/nvarstr.cpp:ltrim", "src/nvarstr.cpp:string_is_empty"]}
{"id": "C08", "title": "Fortran exponent rewriting", "statement": "__for2cpp__ changes every 'D'/'d' up to the terminating NUL into 'E' and nothing else: length, terminator, bytes after it and every other character stay; applying it twice is the same as once; afterwards no D or d is left in the string.", "quantifier": "all NUL-terminated buffers of any length", "why_tests_cant": "in-place mutation over unbounded buffers", "anchors": ["src/nvarstr.cpp:__for2cpp__"]}
{"id": "C09", "title": "Receiver antenna names", "statement": "Whatever C string is used, a ReceiverAntenna never accesses memory outside its own 41 bytes nor reads uninitialised bytes in any sequence of construct / set_serial_nr / has_serial / compare_model / compare_serial / is_same calls; the model+radome field depends only on the first 20 characters of the string; compare_model is an equivalence relation and holds iff the 20-character fields are equal; set_serial_nr never changes the model.", "quantifier": "all C strings and all sequences of calls", "why_tests_cant": "memory safety and uninitialised reads are not visible to a passing test; histories are unbounded", "anchors": ["src/antenna.cpp:ReceiverAntenna::copy_from_cstr", "src/antenna.cpp:ReceiverAntenna::compare_model", "src/antenna.cpp:ReceiverAntenna::set_serial_nr", "src/antenna.cpp:ReceiverAntenna::has_serial", "src/antenna.cpp:ReceiverAntenna::is_same"]}
{"id": "C10", "title": "Radome defaults to NONE only when absent", "statement": "A ReceiverAntenna built from a string whose radome columns (17-20) are absent or blank has radome NONE; one built from a string that carries radome characters keeps them.", "quantifier": "all C strings", "why_tests_cant": "the failing strings (20 characters with blank radome, 17-19 characters) are corner cases of an infinite input space", "anchors": ["src/antenna.cpp:ReceiverAntenna::copy_from_cstr", "src/antenna.cpp:ReceiverAntenna::set_none_radome"]}
{"id": "C11", "title": "Antenna serial numbers", "statement": "After set_serial_nr(s), has_serial() is true iff one of the first 20 characters of s is not blank, and compare_serial(s) is true ('the serial will be set to exactly c').", "quantifier": "all antennas and all serial strings", "why_tests_cant": "holds for full-width serials and fails for shorter ones; needs all lengths", "anchors": ["src/antenna.cpp:ReceiverAntenna::set_serial_nr", "src/antenna.cpp:ReceiverAntenna::compare_serial", "src/antenna.cpp:ReceiverAntenna::has_serial"]}
{"id": "C12", "title": "Same receiver antenna", "statement": "For antennas built by the public operations, is_same is symmetric and transitive, holds iff both have a serial and the 20-character model+radome fields and the 20-character serial fields agree, and is never true when one of them has no serial.", "quantifier": "all pairs and triples of antennas", "why_tests_cant": "quantifies over pairs of unbounded histories", "anchors": ["src/antenna.cpp:ReceiverAntenna::is_same"]}
{"id": "C13", "title": "Satellite antenna comparison", "statement": "SatelliteAntenna::is_same(c) returns true iff c names the same antenna (first 20 characters); to_string() after set_from_cstr(c) returns the first 20 characters of c.", "quantifier": "all C strings", "why_tests_cant": "universal over strings; no shipped test calls is_same with an equal name", "anchors": ["src/antenna.cpp:SatelliteAntenna::is_same", "src/antenna.cpp:SatelliteAntenna::copy_from_cstr", "src/antenna.hpp:SatelliteAntenna::to_string"]}
{"id": "C14", "title": "Satellite names identify satellites", "statement": "Satellite::to_string(true) is the system letter followed by the PRN with at least two digits; for PRN 0..99 it has exactly 3 characters; it distinguishes any two satellites (system, prn) with non-negative PRN. Once the eight COSPAR bytes are set, to_string(false) is the compact form, '-', the SVN (0..999) in three digits, '/', and the eight COSPAR bytes; it distinguishes any two satellites differing in system, PRN, SVN or COSPAR identifier. On a Satellite built by the constructor the COSPAR bytes are not set, and to_string(false) reads them.", "quantifier": "all systems, all int PRNs, SVNs 0..999 and COSPAR identifiers (long form)", "why_tests_cant": "injectivity over all ints", "anchors": ["src/satellite.cpp:Satellite::to_string"]}
{"id": "C15", "title": "Two-digit years", "statement": "four2two_digit_year maps 0..79 to 2000..2079 and 80..99 to 1980..1999, is injective on 0..99 and inverse to taking the year modulo 100.", "quantifier": "all two-digit years", "why_tests_cant": "states inverse and range laws, not samples", "anchors": ["src/rinex.hpp:four2two_digit_year"]}
{"id": "C16", "title": "Observation-type table of the header", "statement": "When a 'SYS / # / OBS TYPES' block declares n >= 1 observation types laid out as RINEX 3.04 prescribes (13 per line, continuation lines), the reader stores exactly those n codes, in order, for that system and leaves the stream just after the block.", "quantifier": "all systems, all n, all code lists and all following file contents", "why_tests_cant": "fails exactly when n is a multiple of 13; needs all n", "anchors": ["src/obsrnx.cpp:ObservationRnx::__resolve_obstypes_304__"]}
{"id": "C17", "title": "Observation-type table: what success means", "statement": "Whatever the bytes, if resolving a 'SYS / # / OBS TYPES' block returns 0 then the system was not present before, exactly the declared number of codes is stored for it, all other systems' tables are unchanged; on a non-zero return no table changes. A second block for a system already present returns 1; a declared count <= 0 returns 9 or an error.", "quantifier": "all file contents, positions and prior tables", "why_tests_cant": "adversarial file contents", "anchors": ["src/obsrnx.cpp:ObservationRnx::__resolve_obstypes_304__"]}
{"id": "C18", "title": "Epoch header line", "statement": "__resolve_epoch_304__ never reads outside the line; it accepts only lines that start with '>' and have at least 35 characters; on a well-formed line it returns the date, seconds of day, flag, satellite count and clock offset written in it; a line whose satellite count field is not a number is rejected.", "quantifier": "all NUL-terminated lines", "why_tests_cant": "the malformed-count case silently yields 0 satellites; needs all lines", "anchors": ["src/obsrnx.cpp:ObservationRnx::__resolve_epoch_304__"]}
{"id": "C19", "title": "Observation fields are decoded column-exactly", "statement": "A 16-character observation field (F14.3, I1, I1) is decoded to the number in its first 14 columns, the loss-of-lock digit in column 15 and the signal-strength digit in column 16; an all-blank number field gives the missing value.", "quantifier": "all 16-character fields", "why_tests_cant": "most digit combinations look right: the LLI/SSI digits contaminate decimals beyond the third", "anchors": ["src/obsrnx.cpp:RawRnxObs__::resolve"]}
{"id": "C20", "title": "The read plan addresses the right columns", "statement": "When set_read_map returns a non-empty plan, then for each requested system and each surviving request, in order, the plan lists for each part (in order) the column whose header code equals the part's code, with the part's coefficient; plan and (pruned) request list have equal length per system; every column index is within the header's list for that system.", "quantifier": "all headers, all request maps, both values of skip_missing", "why_tests_cant": "quantifies over arbitrary tables and request maps", "anchors": ["src/obsrnx.cpp:ObservationRnx::set_read_map", "src/obsrnx.cpp:ObservationRnx::obs_getter"]}
{"id": "C21", "title": "Missing and mixed requests", "statement": "With skip_missing=false, set_read_map returns an empty plan if any requested observable cannot be formed, and the request map is unchanged. With skip_missing=true exactly the unformable requests are removed and the others keep their order. A request with parts of two systems, or filed under a different system, always yields the empty plan. obs_getter on an observable with no parts is undefined behaviour.", "quantifier": "all headers and request maps", "why_tests_cant": "all-or-nothing behaviour over arbitrary maps", "anchors": ["src/obsrnx.cpp:ObservationRnx::set_read_map", "src/obsrnx.cpp:ObservationRnx::obs_getter"]}
{"id": "C22", "title": "The line buffer fits every record the header allows", "statement": "The buffer allocated by the constructor holds a complete satellite record line with every observable of the header, and every epoch header line, so that reading them does not put the stream in a failed state.", "quantifier": "all headers (any number of observation types) and all conforming lines", "why_tests_cant": "small headers (1-3 observables) break the epoch line; needs all sizes", "anchors": ["src/obsrnx.cpp:ObservationRnx::ObservationRnx", "src/obsrnx.cpp:ObservationRnx::max_obs", "src/obsrnx.cpp:ObservationRnx::read_next_epoch"]}
{"id": "C23", "title": "Values collected for a satellite", "statement": "sat_epoch_collect returns for each requested observable the coefficient-weighted sum of the addressed fields; if any addressed field is blank or beyond the end of the line the result is RNXOBS_MISSING_VAL; the number of values written equals the number of requests, each in request order, and other entries of the output are untouched.", "quantifier": "all record lines, plans and coefficients", "why_tests_cant": "a blank field followed by a present one contaminates the sum; needs all plans and lines", "anchors": ["src/obsrnx.cpp:ObservationRnx::sat_epoch_collect"]}
{"id": "C24", "title": "Satellite numbers are validated", "statement": "sat_epoch_collect accepts a record line only if columns 2-3 hold a number between 1 and 99 and then reports exactly that number; no other line yields a satellite.", "quantifier": "all record lines", "why_tests_cant": "all two-character fields, including signs, blanks and bytes >= 0x80", "anchors": ["src/obsrnx.cpp:ObservationRnx::sat_epoch_collect"]}
{"id": "C25", "title": "An epoch yields the requested satellites in file order", "statement": "collect_epoch on success has consumed exactly numsats lines, has skipped satellites of systems not in the plan, and has stored the others in file order in entries [0, satscollected), leaving the remaining entries untouched; satscollected never exceeds numsats. No write outside the output vector happens.", "quantifier": "all file contents, plans and output vectors", "why_tests_cant": "more than 80 collected satellites write out of bounds; a test that triggers it has undefined behaviour", "anchors": ["src/obsrnx.cpp:ObservationRnx::collect_epoch", "src/obsrnx.cpp:ObservationRnx::initialize_epoch_vector"]}
{"id": "C26", "title": "Epoch reading reports end of file and errors distinctly", "statement": "read_next_epoch returns 0 after a complete epoch, -1 only at end of file with no epoch delivered, 21..25 for a bad epoch header and 31 for a bad record; every complete epoch of the file is delivered with return value 0.", "quantifier": "all file contents and positions", "why_tests_cant": "the last epoch of a file without trailing newline is reported as -1; needs all contents", "anchors": ["src/obsrnx.cpp:ObservationRnx::read_next_epoch"]}
{"id": "C27", "title": "SP3 flag set algebra", "statement": "Sp3Flag behaves as a set of Sp3Event: after any sequence of set/clear/reset calls, is_set(e) is true iff the last call concerning e was set(e) (with no reset after it); operations on one event never affect another.", "quantifier": "all sequences of flag operations of any length", "why_tests_cant": "histories are unbounded", "anchors": ["src/sp3c.hpp:Sp3Flag"]}
{"id": "C28", "title": "SP3 position records", "statement": "Resolving a position line returns x, y, z in metres (1000 times the written kilometres) and the clock as written; the bad-position flag is set iff some coordinate is 0, the bad-clock flag iff the clock value is >= 999999, and event flags iff the letters stand in their columns; no flag of a previous record survives. Short lines never make the result depend on earlier lines.", "quantifier": "all record lines and prior buffer contents", "why_tests_cant": "dependence on stale buffer bytes is a property over histories", "anchors": ["src/sp3c.cpp:Sp3c::get_next_position"]}
{"id": "C29", "title": "SP3 predicted orbits are flagged", "statement": "A position record carrying the SP3 orbit-prediction mark 'P' in column 80 gets the orbit_prediction flag, and one without the mark does not.", "quantifier": "all record lines", "why_tests_cant": "the code looks for 'E'; a universal statement exposes it", "anchors": ["src/sp3c.cpp:Sp3c::get_next_position"]}
{"id": "C30", "title": "SP3 epoch reading terminates and stays in bounds", "statement": "get_next_epoch returns for every file content; it never writes outside the record vector returned by allocate_epoch_vector(); on return 0 the number of records equals the number of P lines of the epoch, stored in order, and the next epoch header has not been consumed.", "quantifier": "all file contents", "why_tests_cant": "non-termination (file without EOF line) and out-of-bounds writes cannot be observed by a passing test", "anchors": ["src/sp3c.cpp:Sp3c::get_next_epoch"]}
{"id": "C31", "title": "ANTEX: closest antenna", "statement": "find_closest_antenna_match returns -1 iff the file holds a record with equal model, radome and serial (and yields the first such record), 0 iff there is no such record but one of the same model and radome without serial, and a positive value otherwise.", "quantifier": "all ANTEX files (sequences of antenna records) and all antennas", "why_tests_cant": "holds for all record sequences except absent antennas; needs induction over the file", "anchors": ["src/antex.cpp:Antex::find_closest_antenna_match", "src/antex.cpp:Antex::read_next_antenna_type"]}
{"id": "C32", "title": "ANTEX: an unknown antenna yields no phase-centre offsets", "statement": "get_antenna_pco for an antenna absent from the file returns 1 and leaves the list empty; with must_match_serial it returns 10 only if the model exists without that serial.", "quantifier": "all ANTEX files and antennas", "why_tests_cant": "depends on uninitialised status and position variables", "anchors": ["src/antex.cpp:Antex::get_antenna_pco"]}
{"id": "C33", "title": "ANTEX: skipping to the end of an antenna", "statement": "skip_rest_of_antenna always returns, after at most 5000 lines; if it returns 0 the stream is positioned right after the first following line labelled 'END OF ANTENNA'.", "quantifier": "all file contents and positions", "why_tests_cant": "termination over arbitrary contents", "anchors": ["src/antex.cpp:Antex::skip_rest_of_antenna"]}
{"id": "C34", "title": "ANTEX: validity interval of satellite antennas", "statement": "check_time_interval returns 0 iff VALID FROM <= epoch <= VALID UNTIL (no upper bound when VALID UNTIL is absent); a record without VALID FROM is never valid; the check terminates.", "quantifier": "all file contents and epochs", "why_tests_cant": "termination: the loop guard is never incremented", "anchors": ["src/antex.cpp:check_time_interval"]}
{"id": "C35", "title": "ANTEX: phase-centre offsets", "statement": "collect_pco on success adds exactly the declared number of frequencies, in file order, each with its system, band and north/east/up values; it never terminates the program on malformed numbers.", "quantifier": "all file contents", "why_tests_cant": "number parsing outside a try block in a noexcept function kills the process", "anchors": ["src/antex.cpp:collect_pco"]}
{"id": "C36", "title": "ANTEX: satellite identity is not inherited", "statement": "find_satellite_antenna returns 0 only for a record whose system and PRN are the requested ones and whose validity interval contains the epoch, and the Satellite it hands out carries only data from that record.", "quantifier": "all record sequences", "why_tests_cant": "SVN/COSPAR of an earlier record leak into a later one; needs histories", "anchors": ["src/antex.cpp:Antex::find_satellite_antenna", "src/antex.cpp:resolve_satellite_antenna_line"]}
{"id": "C37", "title": "Bernese channel lookup", "statement": "get_frequency_channel returns 0 with the channel and PRN of the first MW record of part 2 whose SVN matches and whose interval [start, stop) contains the epoch; -1 if none exists before the end of the part; it always returns (at most 1000 records).", "quantifier": "all SATELLIT files, SVNs and epochs", "why_tests_cant": "search over unbounded files", "anchors": ["src/bern_utils.cpp:BernSatellit::get_frequency_channel"]}
{"id": "C38", "title": "Navigation block geometry", "statement": "For each system a navigation block is read with exactly the number of lines RINEX 3.04 prescribes (8 for GPS, QZSS, BeiDou, Galileo, IRNSS; 4 for GLONASS, SBAS), whether it is parsed by read_next_record or skipped by ignore_next_block, so both leave the stream at the same place; a system without a block format is an error.", "quantifier": "all systems and all file contents", "why_tests_cant": "agreement of two code paths over all inputs; 'M' blocks are skipped without consuming anything", "anchors": ["src/navrnx.cpp:NavDataFrame::set_from_rnx3", "src/navrnx.cpp:NavigationRnx::ignore_next_block", "src/navrnx.cpp:__lines_per_satsys_v3__"]}
{"id": "C39", "title": "Navigation block decoding", "statement": "A successfully read navigation block stores each number of the block at its documented index, scales the nine GLONASS state components from km to m and nothing else, never writes outside the 31 data slots, and takes nothing from a previous block.", "quantifier": "all block contents and all previous frame contents", "why_tests_cant": "stale slots (Galileo/BeiDou index 22 and unused tail) are visible only across histories", "anchors": ["src/navrnx.cpp:NavDataFrame::set_from_rnx3", "src/nvarstr.hpp:__char2double__"]}
{"id": "C40", "title": "Peeking does not consume", "statement": "peak_satsys never changes the stream position, reports -1 exactly at end of file and a positive status for an unknown letter; calling it twice gives the same answer.", "quantifier": "all file contents and positions", "why_tests_cant": "byte 0xFF aliases EOF through a char; needs all bytes", "anchors": ["src/navrnx.cpp:NavigationRnx::peak_satsys"]}
{"id": "C41", "title": "Finding the next message", "statement": "find_next returns 0 only with a frame of the requested system (and PRN if not -1), the first such block at or after the current position; -1 only at end of file; it always returns; rewinding to the reported position restores the stream.", "quantifier": "all file contents, systems and PRNs", "why_tests_cant": "a block letter 'M' makes it loop forever; needs all contents", "anchors": ["src/navrnx.cpp:NavigationRnx::find_next", "src/navrnx.cpp:NavigationRnx::rewind"]}
{"id": "C42", "title": "Finding a valid message for an epoch", "statement": "find_next_valid returns 0 only with a healthy frame of the requested system and PRN whose validity covers the epoch ([ToC, ToC+fit) or for GLONASS [ToE-15min, ToE+15min)); PRN -1 means any satellite.", "quantifier": "all file contents, epochs, systems, PRNs", "why_tests_cant": "documented wildcard is never honoured; needs all contents", "anchors": ["src/navrnx.hpp:NavigationRnx::find_next_valid"]}
{"id": "C43", "title": "Fit intervals and health", "statement": "fit_interval is 900 s for GLONASS, 14400 s for Galileo and BeiDou and 3600 times the whole hours field for GPS; sv_health reads the documented slot; both throw for systems without support. A valid GPS message has a positive interval.", "quantifier": "all frames", "why_tests_cant": "a GPS block with fit-interval field 0 (allowed by RINEX: 'not known') is never valid", "anchors": ["src/navrnx.hpp:NavDataFrame::fit_interval", "src/navrnx.hpp:NavDataFrame::sv_health", "src/gpsnav.cpp:gps_fit_interval"]}
{"id": "C44", "title": "Time of ephemeris", "statement": "toe2date turns (week, seconds of week) into the calendar instant week*604800+sow from the GPS epoch, with BeiDou weeks shifted by 1356; for GLONASS it returns the instant with the message's second-of-week nearest to the time of clock.", "quantifier": "all weeks and seconds of week", "why_tests_cant": "week roll-over is a rare boundary", "anchors": ["src/navrnx.hpp:NavDataFrame::toe2date"]}
{"id": "C45", "title": "Referring epochs to ToE / ToC", "statement": "ref2toe(t) - toe seconds of day equals the elapsed seconds t - ToE for every pair of instants, also across day, month and year boundaries; likewise ref2toc.", "quantifier": "all pairs of instants", "why_tests_cant": "boundary crossings in both directions", "anchors": ["src/navrnx.hpp:NavDataFrame::ref2toe", "src/navrnx.hpp:NavDataFrame::ref2toc"]}
{"id": "C46", "title": "Kepler's equation is solved", "statement": "For 0 <= e < 1 the iteration's iterates contract by e per step; if it stops with success the returned anomaly satisfies Kepler's equation within e*1e-14; it always stops after at most 1001 steps and reports an error iff it did not converge in fewer than 1000; for eccentricities of navigation satellites it always succeeds.", "quantifier": "all mean anomalies and eccentricities", "why_tests_cant": "real-number convergence for all parameters", "anchors": ["src/navrnx.hpp:NavDataFrame::kepler2state", "src/navrnx.hpp:NavDataFrame::sv_clock"]}
{"id": "C47", "title": "Orbit geometry", "statement": "The ECEF position returned by kepler2state lies at distance |r_k| from the geocentre, where r_k = A(1-e cos E)+dr, |z| <= |r_k|, and depends on the message only through the documented slots.", "quantifier": "all messages and instants", "why_tests_cant": "trigonometric identity over reals", "anchors": ["src/navrnx.hpp:NavDataFrame::kepler2state"]}
{"id": "C48", "title": "Satellite clock", "statement": "sv_clock returns a0 + a1 dt + a2 dt^2 + F e sqrt(A) sin E with dt the time since ToC; without eccentricity it is the pure polynomial; the relativistic term is bounded by |F| e sqrt(A).", "quantifier": "all messages and instants", "why_tests_cant": "real arithmetic over all messages", "anchors": ["src/navrnx.hpp:NavDataFrame::sv_clock"]}
{"id": "C49", "title": "GLONASS propagation reaches the requested instant", "statement": "glo_ecef integrates from ToE to the requested instant and returns the state at that instant.", "quantifier": "all frames and instants", "why_tests_cant": "fixed 60 s steps overshoot unless the span is a multiple of 60; day wrap can yield no step at all", "anchors": ["src/glonav.cpp:NavDataFrame::glo_ecef"]}
{"id": "C50", "title": "GLONASS propagation is bounded", "statement": "glo_ecef performs at most 720 integration steps for any instant, its time after n steps is ToE+n*h, and its result status is 0 iff |t-ToE| <= 900 s, else -1.", "quantifier": "all frames and instants", "why_tests_cant": "bound over all reals", "anchors": ["src/glonav.cpp:NavDataFrame::glo_ecef"]}
{"id": "C51", "title": "GLONASS clock", "statement": "glo_clock evaluates -TauN + GammaN * dt where dt is t - ToE reduced to at most half a day in absolute value and congruent to it modulo one day.", "quantifier": "all frames and instants", "why_tests_cant": "reduction law over all reals", "anchors": ["src/glonav.cpp:NavDataFrame::glo_clock"]}
{"id": "C52", "title": "Kalman covariance stays symmetric", "statement": "After any number of updates with any satellites, observations and weights (for which the residual covariance is invertible), the state covariance is symmetric, and equals (I - W H) times the predicted covariance when weights are supplied or not.", "quantifier": "all sequences of updates", "why_tests_cant": "invariant over unbounded histories and real matrices", "anchors": ["src/gauss_newton.hpp:Kalman::update"]}
{"id": "C53", "title": "Moving an observation reader", "statement": "An ObservationRnx can be moved from and both objects destroyed: the line buffer is released exactly once.", "quantifier": "all sequences of construct, move and destroy", "why_tests_cant": "double free is undefined behaviour, invisible to a passing test", "anchors": ["src/obsrnx.hpp:ObservationRnx(ObservationRnx&&)", "src/obsrnx.cpp:ObservationRnx::~ObservationRnx"]}
{"id": "C54", "title": "Header fields of an observation file", "statement": "read_header assigns marker name, numbers, antenna and positions from the header lines that carry them (every line between the first and END OF HEADER), returns 0 only after an END OF HEADER line and returns an error after at most 1000 lines otherwise.", "quantifier": "all file contents", "why_tests_cant": "the second line is skipped and names are cut at the first blank; needs all contents", "anchors": ["src/obsrnx.cpp:ObservationRnx::read_header"]}
{"id": "C55", "title": "Rewinding", "statement": "After rewind() the next record read is the first record after the header, for any sequence of earlier reads, including after end of file was reported.", "quantifier": "all file contents and read histories", "why_tests_cant": "histories; eof/fail bits", "anchors": ["src/obsrnx.hpp:ObservationRnx::rewind", "src/navrnx.cpp:NavigationRnx::rewind", "src/sp3c.cpp:Sp3c::rewind"]}
{"id": "C56", "title": "Crash-freedom of the noexcept readers", "statement": "No content of an input file makes a noexcept reading function terminate the program through an escaping exception.", "quantifier": "all file contents", "why_tests_cant": "process death ends the test", "anchors": ["src/obsrnx.cpp:ObservationRnx::__resolve_obstypes_304__", "src/navrnx.cpp:NavDataFrame::set_from_rnx3", "src/antex.cpp:collect_pco"]}
{"id": "C57", "title": "GPS accuracy index", "statement": "gps_ura maps index 0..6 to 2^(1+N/2) and 7..14 to 2^(N-2) metres (rounded to 0.1 m), is monotone in the index and returns the 'unusable' value for 15 and above.", "quantifier": "all index values", "why_tests_cant": "monotonicity over all values", "anchors": ["src/gpsnav.cpp:NavDataFrame::gps_ura"]}
{"id": "C58", "title": "Antenna radome of an observation file", "statement": "After opening an observation file whose 'ANT # / TYPE' line holds a model and a 4-character radome in the RINEX columns, the receiver antenna of the object has that model and that radome.", "quantifier": "all serials, models (up to 15 characters) and radomes", "why_tests_cant": "all names", "anchors": ["src/obsrnx.cpp:ObservationRnx::read_header", "src/antenna.hpp:ReceiverAntenna"]}
{"id": "C60", "title": "Every written observation is delivered", "statement": "A number written in an observation field (with a blank loss-of-lock column) is delivered multiplied by its coefficient, and is not counted as missing.", "quantifier": "all record lines, columns, numbers and coefficients", "why_tests_cant": "all numbers, including the one used as marker", "anchors": ["src/obsrnx.cpp:ObservationRnx::sat_epoch_collect", "src/obsrnx.hpp:RNXOBS_MISSING_VAL"]}
{"id": "C61", "title": "A conforming observation file is delivered whole", "statement": "For a conforming header followed by any number of conforming epochs the constructor succeeds, each call of read_next_epoch returns 0 with the epoch's header and exactly the satellites and values selected by the plan, in file order, and the call after the last epoch returns -1.", "quantifier": "all headers, plans, numbers of epochs and of satellites", "why_tests_cant": "unbounded files", "anchors": ["src/obsrnx.cpp:ObservationRnx::read_header", "src/obsrnx.cpp:ObservationRnx::read_next_epoch"]}
{"id": "C62", "title": "SP3 headers are read exactly", "statement": "Opening a conforming SP3-c/d file yields its version, start epoch, number of epochs and satellites, coordinate system, orbit type, agency, time system and interval as written, and leaves the stream at the first epoch; opening ends for every file content and throws exactly when the header was refused.", "quantifier": "all conforming headers (any numbers of satellite, accuracy and comment lines), and all file contents for the second part", "why_tests_cant": "the header is a free text of unbounded many lines and values", "anchors": ["src/sp3c.cpp:Sp3c::read_header", "src/sp3c.cpp:Sp3c::Sp3c"]}
{"id": "C63", "title": "SP3 interpolator can be constructed", "statement": "Constructing a LagrangeSp3Interpolator over an opened SP3 file is defined behaviour and gives one record list per satellite of the file.", "quantifier": "all opened SP3 files", "why_tests_cant": "an out-of-range vector write usually goes unnoticed in a test", "anchors": ["src/sp3c.hpp:LagrangeSp3Interpolator"]}
{"id": "C64", "title": "Whole SP3 files are delivered", "statement": "For a conforming SP3 file (header, epochs with at most the announced number of position records, other lines between them, EOF), opening it and calling get_next_epoch once per epoch with the vector of allocate_epoch_vector() delivers each epoch in order with its time and its records in order; all calls but the last return 0, the last one -1.", "quantifier": "all conforming files with any number of epochs and records", "why_tests_cant": "unbounded number of epochs and records", "anchors": ["src/sp3c.cpp:Sp3c::get_next_epoch", "src/sp3c.cpp:Sp3c::read_header", "src/sp3c.hpp:Sp3c::allocate_epoch_vector"]}
{"id": "C65", "title": "Navigation headers", "statement": "Opening a conforming RINEX 3 navigation file yields its version and system, leaves the stream at the first block, and a rewind without argument returns there from anywhere; an object can only be constructed from a file that has an END OF HEADER line, type N in column 21 and a known system letter in column 41; every failure is one of the documented return codes.", "quantifier": "all header contents and all files", "why_tests_cant": "any number of header lines with any contents; soundness is over all files", "anchors": ["src/navrnx.cpp:NavigationRnx::read_header", "src/navrnx.cpp:NavigationRnx::NavigationRnx", "src/navrnx.cpp:NavigationRnx::rewind"]}
{"id": "C66", "title": "Whole navigation files are delivered", "statement": "For a conforming header followed by any sequence of conforming blocks, reading block by block delivers every block in order with its own numbers, then -1, and a rewind returns to the first block.", "quantifier": "all sequences of blocks of all systems, all numbers", "why_tests_cant": "unbounded sequences mixing systems with different block sizes", "anchors": ["src/navrnx.cpp:NavigationRnx::read_next_record", "src/navrnx.cpp:NavDataFrame::set_from_rnx3"]}
{"id": "C67", "title": "Malformed navigation blocks are errors", "statement": "Whatever follows the header, read_next_record returns a code: never 0 for a block that is cut short, never ends the program and never reads indeterminate memory.", "quantifier": "all file contents", "why_tests_cant": "robustness over all byte strings", "anchors": ["src/navrnx.cpp:NavDataFrame::set_from_rnx3", "src/nvarstr.hpp:__char2double__"]}
{"id": "C68", "title": "GLONASS equations of motion", "statement": "The state glo_ecef writes is the result of whole classical fourth-order Runge-Kutta steps of plus or minus 60 s, from the broadcast position, velocity and acceleration, of the differential equations of the GLONASS ICD (appendix J) with the PZ-90 constants.", "quantifier": "every broadcast message with a position off the geocentre, every requested instant", "why_tests_cant": "The equations range over real state vectors and every number of steps; samples cannot separate a wrong coefficient from truncation error.", "anchors": ["src/glonav.cpp:glo_state_deriv", "src/glonav.cpp:NavDataFrame::glo_ecef"]}
{"id": "C69", "title": "stateNclock", "statement": "For a GPS, Galileo or BeiDou message with eccentricity up to 0.96 stateNclock(t) returns 0 and writes the position of the interface document at the elapsed time t-ToE and the clock polynomial plus relativity term at t-ToC; for GLONASS it returns 0 with state and clock when |t-ToE| <= 900 s and -1 with the state only otherwise; for any other system it throws.", "quantifier": "every message, every instant whose day difference fits an int", "why_tests_cant": "Ranges over all messages and all pairs of instants, including day and year boundaries.", "anchors": ["src/navrnx.hpp:NavDataFrame::stateNclock", "src/navrnx.hpp:gps_stateNclock", "src/navrnx.hpp:glo_stateNclock"]}
{"id": "C70", "title": "GLONASS state at the ephemeris epoch", "statement": "For a GLONASS block read from a file, stateNclock at ToE returns 0, the six broadcast position and velocity numbers times 1000, and the broadcast clock bias.", "quantifier": "every conforming GLONASS block", "why_tests_cant": "Ranges over every text of every number in the block, composing decoding, scaling and propagation.", "anchors": ["src/navrnx.cpp:NavDataFrame::set_from_rnx3", "src/glonav.cpp:NavDataFrame::glo_ecef"]}
{"id": "C71", "title": "BeiDou geostationary satellites", "statement": "For a BeiDou satellite the position returned is the one of the BeiDou ICD: for PRN 1 to 5 (GEO) with the additional rotations, for others the ordinary one.", "quantifier": "every BeiDou PRN, message and instant", "why_tests_cant": "Ranges over all messages and satellites.", "anchors": ["src/navrnx.hpp:NavDataFrame::kepler2state"]}
{"id": "C72", "title": "Kalman covariance is positive", "statement": "After any history of updates with weights above -100, the covariance is symmetric positive definite, the next such update is always defined unless a satellite coincides with the predicted position, and it never increases the variance of any linear combination of the state.", "quantifier": "every sequence of epochs, satellites, observations, time steps and weights above -100", "why_tests_cant": "An invariant over unbounded histories and all real inputs.", "anchors": ["src/gauss_newton.hpp:Kalman::update"]}
{"id": "C73", "title": "Kalman update without weights", "statement": "An update without weights yields a state; the linearised measurements are then fitted exactly.", "quantifier": "every state and epoch without weights", "why_tests_cant": "In floating point a singular matrix usually inverts to some huge finite matrix, so a test sees numbers; that the inverse does not exist is a statement about all inputs.", "anchors": ["src/gauss_newton.hpp:Kalman::update"]}
{"id": "C74", "title": "Kalman Jacobian", "statement": "The Jacobian is the derivative of the predicted pseudoranges: for every displacement of the state the predicted pseudorange differs from its linearisation by at least 0 and at most |d|^2/(2 r).", "quantifier": "every state, satellite position, displacement and coefficient", "why_tests_cant": "A remainder bound for all real displacements.", "anchors": ["src/gauss_newton.hpp:Kalman::evaluate_jacobian", "src/gauss_newton.hpp:Kalman::compute_pseudorange_vector"]}
{"id": "C75", "title": "Satellite order is immaterial", "statement": "Permuting the satellites (with their observations and weights) of an epoch does not change the state and covariance after the update, nor whether it is defined.", "quantifier": "every state, epoch and permutation", "why_tests_cant": "Ranges over all permutations of any number of satellites and all real inputs.", "anchors": ["src/gauss_newton.hpp:Kalman::update"]}
{"id": "C76", "title": "Kalman gain is optimal", "statement": "With weights, the covariance after the update is that of the estimate with the gain used, and no other linear gain gives a smaller variance of any combination of the state.", "quantifier": "every weighted history, epoch and alternative gain matrix", "why_tests_cant": "Compares with all alternative gains.", "anchors": ["src/gauss_newton.hpp:Kalman::update"]}
{"id": "C77", "title": "Kalman motion model", "statement": "The prediction keeps position and clock drift and moves the clock by dt times the drift; an epoch whose measurements equal the predictions leaves the predicted state; an epoch without satellites only predicts; the number of updates is counted.", "quantifier": "every state and epoch", "why_tests_cant": "Ranges over all real states and epochs.", "anchors": ["src/gauss_newton.hpp:Kalman::update"]}
{"id": "C78", "title": "ANTEX: lookups do not depend on earlier lookups", "statement": "On one Antex object every query (closest antenna, receiver or satellite phase-centre offsets, satellite info) gives the answer a freshly opened object gives, whatever queries, successful or not, were made before.", "quantifier": "all ANTEX files and all finite histories of queries", "why_tests_cant": "histories are unbounded; a failed read leaves state in the stream that spoils later queries", "anchors": ["src/antex.cpp:Antex::find_closest_antenna_match", "src/antex.cpp:Antex::find_satellite_antenna", "src/antex.cpp:Antex::get_antenna_pco"]}
{"id": "C79", "title": "ANTEX: header", "statement": "Opening an ANTEX file records the satellite system, the version (1.3 or 1.4) and the position of the first antenna block of a well-formed header; other versions, unknown systems, files with relative PCVs and headers without END OF HEADER are rejected with distinct codes (10, 11, 12, 20); the constructor never reads undefined memory.", "quantifier": "all file contents", "why_tests_cant": "all headers of up to 1000 lines, arbitrary further contents", "anchors": ["src/antex.cpp:Antex::read_header"]}
{"id": "C80", "title": "Bernese lookups do not depend on history", "statement": "On one BernSatellit object, the answer of get_frequency_channel depends only on the file and on the (SVN, epoch) asked for, whatever lookups came before it.", "quantifier": "all well-formed SATELLIT files, all finite sequences of lookups", "why_tests_cant": "all histories of calls on a shared stream", "anchors": ["src/bern_utils.cpp:BernSatellit::get_frequency_channel"]}
{"id": "C81", "title": "Opening a SATELLIT file", "statement": "The constructor accepts exactly the files with the BSW5.2 title, a 'PART 2: ON-BOARD SENSORS' line within the next 999 lines and the two column-title lines after it, and then lookups start at the line after the blank line; other files are refused with codes 10 (title), 11 (no part 2), 12 and 13 (columns); it never reads undefined memory.", "quantifier": "all file contents", "why_tests_cant": "arbitrary contents and lengths", "anchors": ["src/bern_utils.cpp:BernSatellit::initialize", "src/bern_utils.cpp:BernSatellit::BernSatellit"]}
{"id": "C82", "title": "The message cache of the point-positioning program", "statement": "A lookup of a navigation message for a satellite and epoch answers with a cached message of that satellite which is healthy and covers the epoch, or reports failure leaving the cache alone; it succeeds when the file holds a usable message; it never moves the navigation file, never touches what is cached for other satellites, and after any sequence of lookups no satellite has two cached messages and all are healthy.", "quantifier": "all navigation files, all sequences of lookups, all caches", "why_tests_cant": "arbitrary histories of lookups and file contents", "anchors": ["test/pp_rnx.cpp:get_valid_msg", "test/pp_rnx.cpp:update_msg", "test/pp_rnx.cpp:check_nav_msg"]}
{"id": "C83", "title": "The most recent usable message is used", "statement": "Among the messages of the file usable for a satellite at an epoch, the lookup of the point-positioning program delivers the latest; whatever it delivers is a message of the file, unaltered.", "quantifier": "all navigation files, satellites and epochs", "why_tests_cant": "arbitrary number and order of messages", "anchors": ["test/pp_rnx.cpp:get_valid_msg", "src/navrnx.cpp:NavigationRnx::find_next_valid"]}
{"id": "C84", "title": "One ANTEX object for several files", "statement": "After any history of lookups and of switches to other files (including failed ones), switching an Antex object to a file throws exactly when constructing a new object on that file does, leaves no file attached then, and otherwise makes it answer every later sequence of lookups exactly as the new object would.", "quantifier": "all histories of switches and lookups, all file contents, changing file systems", "why_tests_cant": "arbitrary histories and stream states", "anchors": ["src/antex.cpp:Antex::reset_to_file", "src/antex.cpp:Antex::Antex", "src/antex.hpp:Antex"]}
{"id": "C85", "title": "The text of an observable", "statement": "GnssObservable::to_string writes the parts in order, each as raw observable and coefficient (the nearest decimal with six decimals), and two observables have the same text exactly when they are equal.", "quantifier": "all observables: any number of parts, codes and coefficients", "why_tests_cant": "injectivity over all pairs of observables", "anchors": ["src/gnssobsrv.cpp:GnssObservable::to_string", "src/gnssobsrv.cpp:__ObsPart::to_string"]}
{"id": "C86", "title": "Debug and release builds read alike", "statement": "Built with DEBUG (the default flags) or without, reading, skipping, peeking and searching a navigation file give the same status codes, messages, stored positions and stream; the checks of the debug build only stop a program whose data are broken.", "quantifier": "all navigation files, stream states, satellites and epochs", "why_tests_cant": "the test programs are built in one configuration; equality of two builds on every file", "anchors": ["src/navrnx.cpp:NavDataFrame::set_from_rnx3", "src/navrnx.cpp:NavigationRnx::find_next", "src/navrnx.cpp:NavigationRnx::peak_satsys", "src/navrnx.hpp:NavigationRnx::find_next_valid", "src/navrnx.hpp:NavDataFrame::glo_toe2date", "src/Makefile.am"]}
{"id": "C87", "title": "Rewinding after any use", "statement": "Whatever calls were made on an Sp3c or NavigationRnx object (reads with any result, skips, peeks, searches, rewinds), rewind() without argument returns to the first epoch or block, so that everything is delivered again as by a fresh object.", "quantifier": "all histories of calls, all file contents", "why_tests_cant": "arbitrary call histories and stream states", "anchors": ["src/sp3c.cpp:Sp3c::rewind", "src/sp3c.cpp:Sp3c::get_next_epoch", "src/navrnx.cpp:NavigationRnx::rewind", "src/navrnx.cpp:NavigationRnx::read_next_record", "src/navrnx.cpp:NavigationRnx::find_next"]}
{"id": "C88", "title": "Each measurement goes to the filter with its own satellite", "statement": "In every epoch the positioning program hands the filter, in file order, exactly the observed satellites above the elevation mask that have a valid message: each observation less its tropospheric delay, together with the position and clock that satellite's own message gives for the epoch.", "quantifier": "all navigation files, caches, epochs, satellite lists and stations", "why_tests_cant": "any mixture of missing values, missing messages, low satellites and odd messages, over any history of the cache", "anchors": ["test/pp_rnx.cpp:main", "test/pp_rnx.cpp:get_valid_msg", "src/navrnx.hpp:NavDataFrame::stateNclock"]}
{"id": "C89", "title": "An epoch without usable satellites is skipped", "statement": "An epoch in which no satellite can be used leaves the filter alone and the program goes on with the next epoch.", "quantifier": "all epochs, all numbers of satellites", "why_tests_cant": "absence of a measurement can arise from any combination of causes", "anchors": ["test/pp_rnx.cpp:main", "test/pp_rnx.cpp:compute_zenith_angles"]}
{"id": "C90", "title": "Any number of satellites in an epoch", "statement": "The processing of an epoch has defined behaviour whatever the number of satellites observed.", "quantifier": "all numbers of satellites up to what the epoch vector holds", "why_tests_cant": "array bounds at every count", "anchors": ["test/pp_rnx.cpp:main", "test/pp_rnx.cpp:MAX_SATS"]}
{"id": "C91", "title": "Zenith angles are geometric angles", "statement": "sv_zen_angle and compute_zenith_angles give the angle between the local vertical and the direction to the satellite (in degrees and radians); satellites far below (resp. at or below) the horizon are reported by an exception naming the first of them.", "quantifier": "all stations, satellite positions and lists", "why_tests_cant": "real geometry: all positions", "anchors": ["test/pp_rnx.cpp:sv_zen_angle", "test/pp_rnx.cpp:compute_zenith_angles"]}
{"id": "C92", "title": "Low satellites get less weight", "statement": "The weight of an observation is the square of the cosine of its zenith angle.", "quantifier": "all zenith angles below 90 degrees", "why_tests_cant": "all real angles", "anchors": ["test/pp_rnx.cpp:weighting_fun"]}
{"id": "C93", "title": "Tropospheric delay of Saastamoinen", "statement": "The tropospheric correction is Saastamoinen's formula with the standard atmosphere, for every station height and zenith angle; it is positive and grows with the zenith angle.", "quantifier": "all heights from 0 to 2000 m, zenith angles up to 80 degrees", "why_tests_cant": "a real function of two variables", "anchors": ["test/pp_rnx.cpp:Saastamoinen::initialize", "test/pp_rnx.cpp:Saastamoinen::correction"]}
{"id": "C94", "title": "A run handles every epoch once and in order", "statement": "On conforming observation and navigation files the positioning program handles every epoch once, in file order, and returns the end-of-file status; on any files, if it returns, its filter updates follow the epochs read up to the first status other than 0, which it returns.", "quantifier": "all files, all numbers of epochs", "why_tests_cant": "runs of any length over any files", "anchors": ["test/pp_rnx.cpp:main", "src/obsrnx.cpp:ObservationRnx::read_next_epoch"]}
{"id": "C95", "title": "The filter is told the elapsed time", "statement": "The time step handed to the filter with each epoch is the time since the epoch of the update before.", "quantifier": "all runs over conforming files, all consecutive updates", "why_tests_cant": "relation between every two consecutive updates of runs of any length", "anchors": ["test/pp_rnx.cpp:main", "src/gauss_newton.hpp:Kalman::update"]}
{"id": "C96", "title": "Reading a file does not depend on what the program did before", "statement": "Opening an observation file, reading an epoch and reading a navigation record give the same result in a program that has opened and read other files before (successfully or not) as in a program that has done nothing yet.", "quantifier": "all histories of openings (of existing and missing files) and reads, all files", "why_tests_cant": "ranges over all histories of a program; the shared state (errno) is invisible at the interface", "anchors": ["src/obsrnx.cpp:ObservationRnx::ObservationRnx", "src/obsrnx.cpp:ObservationRnx::read_header", "src/obsrnx.cpp:ObservationRnx::__resolve_obstypes_304__", "src/obsrnx.cpp:ObservationRnx::__resolve_epoch_304__", "src/obsrnx.cpp:ObservationRnx::sat_epoch_collect", "src/navrnx.cpp:NavDataFrame::set_from_rnx3", "src/nvarstr.hpp:__char2double__"]}
{"id": "C97", "title": "Debug and release builds read observation files alike", "statement": "Built with DEBUG (the default flags) or without, reading an epoch of an observation file gives the same return code, satellites, values and stream; the checks of the debug build stop the program only before it would write outside the caller's vectors.", "quantifier": "all observation files, read plans, output vectors and calendars", "why_tests_cant": "the test programs are built in one configuration; equality of two builds on every file", "anchors": ["src/obsrnx.cpp:ObservationRnx::__resolve_epoch_304__", "src/obsrnx.cpp:ObservationRnx::sat_epoch_collect", "src/obsrnx.cpp:ObservationRnx::collect_epoch", "src/obsrnx.cpp:ObservationRnx::read_next_epoch", "src/Makefile.am"]}
{"id": "C98", "title": "No state far from the ephemeris", "statement": "stateNclock returns status 0 only for an instant within half a week of the message's time of ephemeris (15 minutes for GLONASS), in the debug and in the release build; where both builds answer with status 0 they give the same state and clock.", "quantifier": "all messages, instants and systems", "why_tests_cant": "ranges over all instants; the test programs are built in one configuration", "anchors": ["src/navrnx.hpp:NavDataFrame::kepler2state", "src/navrnx.hpp:NavDataFrame::sv_clock", "src/navrnx.hpp:NavDataFrame::stateNclock", "src/glonav.cpp:NavDataFrame::glo_ecef", "src/Makefile.am"]}
{"id": "C99", "title": "Reading an SP3 file does not depend on what the program did before", "statement": "Opening an SP3 file and reading an epoch of it give the same result in a program that has run other code or read other SP3 files before (successfully or not) as in a program that has done nothing yet.", "quantifier": "all histories of openings, epoch reads and other code, all values of errno, all files", "why_tests_cant": "ranges over all histories of a program; the shared state (errno) is invisible at the interface", "anchors": ["src/sp3c.cpp:Sp3c::Sp3c", "src/sp3c.cpp:Sp3c::read_header", "src/sp3c.cpp:Sp3c::get_next_epoch", "src/sp3c.cpp:Sp3c::get_next_position"]}
{"id": "C100", "title": "SP3 times keep their microseconds", "statement": "The time of an epoch returned by get_next_epoch has exactly the whole microseconds of the seconds field of its header line (F11.8), and the interval reported after opening has those of its field (F14.8).", "quantifier": "all conforming epochs and headers, all values of the field", "why_tests_cant": "static_cast<long>(sec*1e6) truncates a product of two rounded doubles: most values look right, 1.001 s becomes 1000999 microseconds; only a statement over all decimals shows which", "anchors": ["src/sp3c.cpp:Sp3c::get_next_epoch", "src/sp3c.cpp:Sp3c::read_header"]}
{"id": "C101", "title": "SP3 headers with consistent dates are opened", "statement": "A conforming header whose second line gives the start epoch of the first line to the last decimal (week and seconds of week, MJD and day fraction with 13 decimals) is accepted, if the date library returns the doubles nearest to the exact values.", "quantifier": "all conforming headers and start epochs, all calendars", "why_tests_cant": "the check compares doubles for equality; whether rounding breaks it depends on the second of the day and on the binary exponent of the MJD", "anchors": ["src/sp3c.cpp:Sp3c::read_header"]}
{"id": "C102", "title": "SP3 records in terms of the written decimals", "statement": "The coordinates of a position record are 1000 times the written kilometres up to two roundings to double, the clock is the double nearest to the written one, and the bad-position and bad-clock flags are those of the written decimals (zero; at least 999999).", "quantifier": "all conforming position lines", "why_tests_cant": "rounding errors near the limits 0 and 999999 cannot be enumerated by tests", "anchors": ["src/sp3c.cpp:Sp3c::get_next_position"]}
{"id": "C103", "title": "The point-positioning program reads its files", "statement": "Run with the name of an observation file and of a navigation file, both of which can be opened and whose headers are accepted, and with the observation types the program uses listed in the header, the program goes on to read the epochs; with fewer than two names it exits with 1.", "quantifier": "every argument list and every content of every file named", "why_tests_cant": "A test runs the program on a few files; that no file whatsoever gets past the request for observables (or that one does) is a statement about all headers.", "anchors": ["test/pp_rnx.cpp:main", "src/obsrnx.cpp:ObservationRnx::set_read_map", "src/obsrnx.cpp:ObservationRnx::obs_getter"]}
{"id": "C104", "title": "Satellites listed from an ANTEX file", "statement": "Given an ANTEX file, the program lists exactly the satellites 1 to 32 of its system that have an antenna in the file valid at the first epoch of the observation file, once each and in increasing order.", "quantifier": "every well-formed ANTEX file and start time", "why_tests_cant": "It ranges over all files and times, and over the contents of uninitialised memory.", "anchors": ["test/pp_rnx.cpp:main", "src/antex.cpp:Antex::get_satellite_info"]}
{"id": "C105", "title": "Accuracy and issue of data of a Galileo message", "statement": "After a Galileo block is read, gal_iod_nav() is the IODnav and gal_sisa() the SISA written in it (to the precision of a float).", "quantifier": "every conforming Galileo block, previous contents of the frame and rest of the file", "why_tests_cant": "All numbers in all D19.12 spellings and all previous contents of the frame cannot be enumerated.", "anchors": ["src/galnav.cpp:NavDataFrame::gal_sisa", "src/galnav.cpp:NavDataFrame::gal_iod_nav", "src/navrnx.cpp:NavDataFrame::set_from_rnx3"]}
{"id": "C106", "title": "Kepler's equation in machine doubles", "statement": "With rounding to nearest in every operation and a sine accurate to 2^-53, solving Kepler's equation in kepler2state and sv_clock stops with success (the limit 1e-14 is reached) and the eccentric anomaly satisfies the equation to 5.6e-15 and is within 7e-15 rad of its root, for eccentricities up to 0.2 and mean anomalies up to 63 rad (a GNSS orbit within half a week of its epoch stays below 53); likewise up to 0.5 and 31 rad, and up to 0.85 and one revolution.", "quantifier": "all double eccentricities and mean anomalies in the ranges and every accurate sine function", "why_tests_cant": "Whether the fixed 1e-14 limit is above the rounding noise of the iteration has to hold for every pair of doubles and every libm.", "anchors": ["src/navrnx.hpp:NavDataFrame::kepler2state", "src/navrnx.hpp:NavDataFrame::sv_clock"]}
{"id": "C107", "title": "Broadcast positions in machine doubles", "statement": "For every broadcast GPS, Galileo or BeiDou ephemeris within the documented ranges and every time within half a week of its epoch, kepler2state computed in doubles succeeds and each coordinate is within 0.1 mm of the position of the interface document evaluated exactly (root of Kepler's equation, real arithmetic).", "quantifier": "all ephemerides of doubles in the broadcast ranges, all times within half a week, the three systems, every accurate libm", "why_tests_cant": "The accumulated rounding error has to be bounded for every ephemeris and time.", "anchors": ["src/navrnx.hpp:NavDataFrame::kepler2state", "src/satsys.hpp:satellite_system_traits"]}
{"id": "C108", "title": "Satellite clocks in machine doubles", "statement": "For every such ephemeris and clock polynomial and every time within half a week of the clock epoch, sv_clock computed in doubles succeeds and is within 1e-17 s of polynomial plus relativistic term evaluated exactly (with the anomaly at the time since the clock epoch, see C48).", "quantifier": "all ephemerides and clock coefficients of doubles in the broadcast ranges, all times within half a week, the three systems, every accurate libm", "why_tests_cant": "The accumulated rounding error has to be bounded for every ephemeris and time.", "anchors": ["src/navrnx.hpp:NavDataFrame::sv_clock", "src/satsys.hpp:satellite_system_traits"]}
{"id": "C109", "title": "GLONASS orbit and clock in machine doubles", "statement": "For every GLONASS ephemeris of doubles (geocentric distance 25,000 to 26,000 km, at most 3.7 km/s per axis, perturbing acceleration at most 1e-5 m/s^2) and every time within 15 minutes of the ephemeris epoch, glo_stateNclock computed in doubles succeeds; its state is within 1e-7 m and 1e-10 m/s of the exact Runge-Kutta integration of the interface document's equations of motion with the same steps of 60 s, which are the fewest that reach the time; its clock (for times up to 42000 s away) is within 1e-17 s of bias plus drift times elapsed time. Beyond 15 minutes the status is not 0 and no clock is written. Started from a date, the time that is integrated to is within 1e-10 s of the elapsed time.", "quantifier": "all ephemerides of doubles in the broadcast ranges, all double times, every accurate libm", "why_tests_cant": "The rounding errors of up to fifteen Runge-Kutta steps have to be bounded for every ephemeris and time, and the step count must never be changed by rounding.", "anchors": ["src/glonav.cpp:NavDataFrame::glo_ecef", "src/glonav.cpp:glo_state_deriv", "src/glonav.cpp:NavDataFrame::glo_clock", "src/navrnx.hpp:NavDataFrame::glo_stateNclock"]}
{"id": "C110", "title": "Predicted pseudoranges, residuals and Jacobian in machine doubles", "statement": "In Kalman::update computed in doubles, for a receiver up to 7000 km from the geocentre per axis and satellites up to 43,000 km per axis and at least 15,000 km away: every predicted pseudorange is within a micrometre of geometric distance plus receiver clock, every measurement within 1e-7 m of observation plus satellite clock, every residual within two micrometres of observed minus computed; every Jacobian row is within 1e-13 of the scaled unit vector from satellite to receiver, its clock column is exactly the scale and its drift column exactly 0; one element or row per satellite.", "quantifier": "all double states, satellites, clocks, observations and scales in those ranges, any number of satellites, every accurate sqrt", "why_tests_cant": "Rounding errors of every double input in a continuous range have to be bounded.", "anchors": ["src/gauss_newton.hpp:Kalman::compute_pseudorange_vector", "src/gauss_newton.hpp:Kalman::measurement_vector", "src/gauss_newton.hpp:Kalman::evaluate_jacobian"]}
