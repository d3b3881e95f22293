{"id": "C01", "title": "AMT22 frames are accepted exactly when both check bits agree", "statement": "verifyAmtCheckbits(w) returns true iff the even-numbered bits 0..14 of w contain an odd number of ones and the odd-numbered bits 1..15 contain an odd number of ones; bits above 15 are irrelevant.", "quantifier": "every 32-bit word", "why_tests_cant": "2^32 words; the unit tests sample six", "anchors": ["esp32-telescope-sync/lib/helper/src/helper.cpp:verifyAmtCheckbits"]}
{"id": "C02", "title": "Corrupted AMT22 frames are rejected", "statement": "If a frame is accepted, then the frame with any single bit of bits 0..15 inverted is rejected; in general an error pattern is noticed exactly when it inverts an odd number of bits in at least one of the two groups.", "quantifier": "every accepted word and every error pattern", "why_tests_cant": "all pairs of words and patterns", "anchors": ["esp32-telescope-sync/lib/helper/src/helper.cpp:verifyAmtCheckbits"]}
{"id": "C03", "title": "Every encoder position has exactly one valid frame", "statement": "For each 14-bit position there is exactly one pair of check bits that is accepted, and a bus stuck low (0x0000) or high (0xFFFF) is never accepted.", "quantifier": "every 14-bit position", "why_tests_cant": "16384 positions times 4 check values", "anchors": ["esp32-telescope-sync/lib/helper/src/helper.cpp:verifyAmtCheckbits"]}
{"id": "C04", "title": "packPosition never writes outside the message and lays it out as specified", "statement": "packPosition with bufferSize < 24 returns 0 and writes nothing. Otherwise it returns 24, bytes 0..23 hold LENGTH=24, TYPE=0, the 64-bit time, the RA word, the DEC word and STATUS=0 in little endian order, and every other byte of the buffer is unchanged.", "quantifier": "every position, timestamp, buffer content and buffer size", "why_tests_cant": "unbounded buffer sizes and contents", "anchors": ["esp32-telescope-sync/lib/telescope/src/telescope.cpp:packPosition"]}
{"id": "C05", "title": "unpackPosition accepts exactly well-formed messages, reads only inside the given data and changes nothing on failure", "statement": "unpackPosition returns true iff the length field is at least 20, dataLength is at least the length field and the type field is 0; on false the outputs are untouched; no byte at or beyond dataLength is read as long as dataLength >= 2.", "quantifier": "every byte string and dataLength", "why_tests_cant": "unbounded input strings", "anchors": ["esp32-telescope-sync/lib/telescope/src/telescope.cpp:unpackPosition"]}
{"id": "C06", "title": "Stellarium positions survive encode/decode", "statement": "Encoding a decoded RA/DEC word gives the same word back for all 2^32 words; decoding an encoded position returns it to within half a unit (180/2^32 degree), DEC modulo 360; decoded time is the sent microsecond count divided by 1000.", "quantifier": "every 32-bit word; every RA/DEC value in range; every 64-bit time", "why_tests_cant": "2^32 words and a continuum of angles, with IEEE rounding", "anchors": ["esp32-telescope-sync/lib/telescope/src/telescope.cpp:packPosition", "esp32-telescope-sync/lib/telescope/src/telescope.cpp:unpackPosition"]}
{"id": "C07", "title": "Encodable positions", "statement": "packPosition and the NexStar e reply convert an angle to uint32_t with defined behaviour exactly when the scaled angle lies in [0, 2^32).", "quantifier": "every angle", "why_tests_cant": "continuum of positions; compilers hide the undefined conversion", "anchors": ["esp32-telescope-sync/lib/telescope/src/telescope.cpp:packPosition:211-217", "esp32-telescope-sync/lib/nexstar/src/nexstar.cpp:handleRequest:54-56"]}
{"id": "C08", "title": "NexStar replies follow the protocol", "statement": "Every recognised request yields exactly the documented reply, whose last byte is '#' and whose length is the returned value (when the reply buffer is large enough); every other request yields 0 and leaves the reply buffer untouched.", "quantifier": "every request byte string, telescope state, clock and GNSS state", "why_tests_cant": "unbounded requests times all states", "anchors": ["esp32-telescope-sync/lib/nexstar/src/nexstar.cpp:handleRequest"]}
{"id": "C09", "title": "Only a sync request changes the telescope", "statement": "handleRequest leaves alignment, orientation and calibration flag unchanged for every request other than a sync ('s' with at least 18 bytes).", "quantifier": "every request and state", "why_tests_cant": "all states", "anchors": ["esp32-telescope-sync/lib/nexstar/src/nexstar.cpp:handleRequest"]}
{"id": "C10", "title": "handleRequest stays inside its buffers", "statement": "For every recognised request (and for every request in the host build) handleRequest reads no request byte at or beyond requestLength; it never writes reply bytes at or beyond responseMaxLength; the returned length is at most 18.", "quantifier": "every request, reply buffer size and state", "why_tests_cant": "unbounded sizes", "anchors": ["esp32-telescope-sync/lib/nexstar/src/nexstar.cpp:handleRequest", "esp32-telescope-sync/src/main.cpp:onBluetoothData"]}
{"id": "C11", "title": "Stellarium goto messages are never mistaken for NexStar commands", "statement": "A byte string that unpackPosition accepts with length field 20..66 is not answered by handleRequest, so that the binary-protocol path always sees it.", "quantifier": "every accepted goto message", "why_tests_cant": "all messages", "anchors": ["esp32-telescope-sync/lib/nexstar/src/nexstar.cpp:handleRequest", "esp32-telescope-sync/lib/telescope/src/telescope.cpp:unpackPosition", "esp32-telescope-sync/src/main.cpp:loop:489-511"]}
{"id": "C12", "title": "Sync coordinates are read from the hex fields", "statement": "A request 's' hhhhhhhh , hhhhhhhh is read as RA = first field * 360/2^32 and DEC = second field * 360/2^32, minus 360 if above 270, for all pairs of 32-bit values, upper or lower case.", "quantifier": "every pair of 32-bit values", "why_tests_cant": "2^64 pairs", "anchors": ["esp32-telescope-sync/lib/nexstar/src/nexstar.cpp:handleRequest:87-99"]}
{"id": "C13", "title": "What was synced is what is reported", "statement": "After the first or second sync at a new orientation, a position request at the same orientation and sidereal time reports the synced RA and DEC.", "quantifier": "every orientation, target off the poles/zenith, latitude and sidereal time", "why_tests_cant": "continuum of positions", "anchors": ["esp32-telescope-sync/lib/nexstar/src/nexstar.cpp:handleRequest", "esp32-telescope-sync/lib/telescope/src/telescope.cpp:addReferencePoint", "esp32-telescope-sync/lib/telescope/src/telescope.cpp:getCalibratedOrientation"]}
{"id": "C14", "title": "The 'alignment complete' answer follows the acknowledged syncs", "statement": "After every history the 'J' request answers 1 if a sync has been acknowledged (with '#') since boot and 0 otherwise; only NexStar sync requests of the connected TCP client or over Bluetooth are acknowledged that way.", "quantifier": "every history of loop passes, requests, syncs (NexStar and binary) and resets", "why_tests_cant": "unbounded histories", "anchors": ["esp32-telescope-sync/lib/nexstar/src/nexstar.cpp:handleRequest:77-80", "esp32-telescope-sync/src/main.cpp:mqttCallback", "esp32-telescope-sync/src/main.cpp:loop:500-511"]}
{"id": "C15", "title": "The location answer encodes the GNSS position", "statement": "North of the equator and east of Greenwich the 'w' reply encodes latitude and longitude as degrees, minutes, seconds(0) and hemisphere flag, rounded down to the minute (in float arithmetic up to 1/500000 minute).", "quantifier": "every latitude 0..90 and longitude 0..180", "why_tests_cant": "continuum of positions", "anchors": ["esp32-telescope-sync/lib/nexstar/src/nexstar.cpp:handleRequest:36-47"]}
{"id": "C16", "title": "The time answer carries the GNSS time", "statement": "The 'h' reply carries hour, minute, second, month, day and year-2000 in one byte each, for every valid UTC date and time of 2000..2099.", "quantifier": "every date/time", "why_tests_cant": "all dates", "anchors": ["esp32-telescope-sync/lib/nexstar/src/nexstar.cpp:handleRequest:59-70"]}
{"id": "C17", "title": "An NMEA sentence with a wrong byte is rejected", "statement": "verifyChecksum accepts a sentence exactly when the XOR of the bytes between '$' and '*' equals the hex number after '*'; changing any one payload byte (to something other than '*' or '$') of an accepted sentence makes it rejected.", "quantifier": "every sentence and every single-byte change", "why_tests_cant": "unbounded sentences", "anchors": ["esp32-telescope-sync/lib/gnss/src/gnss.cpp:verifyChecksum"]}
{"id": "C18", "title": "A sentence without '$' or '*' is rejected", "statement": "On the device (32-bit) verifyChecksum returns false for each string in which '$' or '*' is missing, and reads no byte outside any string.", "quantifier": "every string", "why_tests_cant": "unbounded strings; differs between 32- and 64-bit builds", "anchors": ["esp32-telescope-sync/lib/gnss/src/gnss.cpp:verifyChecksum"]}
{"id": "C19", "title": "A rejected sentence changes nothing", "statement": "If fromNMEA returns false, position, time, validity and satellite data are unchanged.", "quantifier": "every string and prior state", "why_tests_cant": "unbounded strings times states", "anchors": ["esp32-telescope-sync/lib/gnss/src/gnss.cpp:fromNMEA"]}
{"id": "C20", "title": "RMC sentences are decoded to the values they carry", "statement": "For each well-formed RMC sentence, fromRMC sets time, date, validity, latitude, longitude, speed and course to the numbers in the fields.", "quantifier": "every well-formed RMC sentence", "why_tests_cant": "all field values", "anchors": ["esp32-telescope-sync/lib/gnss/src/gnss.cpp:fromRMC"]}
{"id": "C21", "title": "GGA and GSV sentences are decoded to the values they carry", "statement": "For each well-formed GGA (GSV) sentence time, position, satellites used, dilution and altitude (satellites in view) are set to the numbers in the fields.", "quantifier": "every well-formed sentence", "why_tests_cant": "all field values", "anchors": ["esp32-telescope-sync/lib/gnss/src/gnss.cpp:fromGGA", "esp32-telescope-sync/lib/gnss/src/gnss.cpp:fromGSV"]}
{"id": "C22", "title": "Losing the fix keeps the last position", "statement": "A sentence that reports no fix leaves latitude and longitude unchanged.", "quantifier": "every string, every prior state", "why_tests_cant": "unbounded strings times states", "anchors": ["esp32-telescope-sync/lib/gnss/src/gnss.cpp:fromRMC", "esp32-telescope-sync/lib/gnss/src/gnss.cpp:fromGGA"]}
{"id": "C23", "title": "NMEA parsing never reads past the sentence", "statement": "No string makes fromNMEA read beyond the terminating NUL of the sentence.", "quantifier": "every string", "why_tests_cant": "unbounded strings", "anchors": ["esp32-telescope-sync/lib/gnss/src/gnss.cpp:fromRMC", "esp32-telescope-sync/lib/gnss/src/gnss.cpp:fromGGA", "esp32-telescope-sync/lib/gnss/src/gnss.cpp:fromGSV"]}
{"id": "C24", "title": "The time of day is decoded correctly", "statement": "For each hhmmss time field with up to two decimals the decoded hour, minute and second are hh, mm, ss, despite float arithmetic.", "quantifier": "every time of day with every hundredth of a second", "why_tests_cant": "8.6 million times of day in float arithmetic", "anchors": ["esp32-telescope-sync/lib/gnss/src/gnss.cpp:fromRMC:26-29", "esp32-telescope-sync/lib/gnss/src/gnss.cpp:fromGGA:88-91"]}
{"id": "C25", "title": "A receive buffer is split into its complete sentences", "statement": "fromBuffer terminates on every buffer; from a buffer whose lines each contain a '$' it parses exactly the newline-terminated '$' sentences in order, ignores the unfinished tail, and returns the number accepted.", "quantifier": "every buffer", "why_tests_cant": "unbounded buffers", "anchors": ["esp32-telescope-sync/lib/gnss/src/gnss.cpp:fromBuffer"]}
{"id": "C26", "title": "Julian day numbers are right and consecutive", "statement": "julianDay is the astronomical Julian day of the Gregorian date at 0h UT; it grows by exactly one from each calendar day to the next, including month ends and leap years, despite float arithmetic.", "quantifier": "every Gregorian date of years 1..6767 in float arithmetic (all years in exact arithmetic)", "why_tests_cant": "millions of dates with float rounding", "anchors": ["esp32-telescope-sync/lib/helper/src/helper.cpp:julianDay"]}
{"id": "C27", "title": "Sidereal time is a normalised angle that follows the formula", "statement": "getLocalSiderealTimeDegrees lies in [0,360), differs from the defining polynomial by a whole number of turns, and increases degree for degree with longitude (mod 360).", "quantifier": "every time stamp and longitude; on the device every second of 2000..2099, to within 10^-7 degree", "why_tests_cant": "continuum", "anchors": ["esp32-telescope-sync/lib/helper/src/helper.cpp:getLocalSiderealTimeDegrees"]}
{"id": "C28", "title": "f_mod normalises", "statement": "f_mod(a,n) for n>0 lies in [0,n) and differs from a by a multiple of n.", "quantifier": "every a and n>0", "why_tests_cant": "continuum; false in floating point at tiny negative a", "anchors": ["esp32-telescope-sync/lib/helper/src/helper.cpp:f_mod"]}
{"id": "C29", "title": "Coordinate transforms return normalised angles", "statement": "horizontalToEquatorial returns RA in [0,360) and DEC in [-90,90]; equatorialToHorizontal returns azimuth in [0,360) and altitude in [-90,90]; degToHours returns hours in [0,24) that stand for the same angle.", "quantifier": "all inputs", "why_tests_cant": "continuum", "anchors": ["esp32-telescope-sync/lib/telescope/src/telescope.cpp:horizontalToEquatorial", "esp32-telescope-sync/lib/telescope/src/telescope.cpp:equatorialToHorizontal"]}
{"id": "C30", "title": "The two coordinate transforms are inverse to each other", "statement": "Transforming horizontal to equatorial and back (and vice versa) at the same place and time returns the same direction; away from zenith and poles the same normalised angles.", "quantifier": "all directions, latitudes and times", "why_tests_cant": "continuum", "anchors": ["esp32-telescope-sync/lib/telescope/src/telescope.cpp:horizontalToEquatorial", "esp32-telescope-sync/lib/telescope/src/telescope.cpp:equatorialToHorizontal"]}
{"id": "C31", "title": "Angles on the sky are preserved", "statement": "The angular separation of two directions is the same in horizontal and equatorial coordinates.", "quantifier": "all pairs of directions, all latitudes and times", "why_tests_cant": "continuum", "anchors": ["esp32-telescope-sync/lib/telescope/src/telescope.cpp:horizontalToEquatorial", "esp32-telescope-sync/lib/telescope/src/telescope.cpp:equatorialToHorizontal"]}
{"id": "C32", "title": "The sky turns with sidereal time", "statement": "Advancing sidereal time by d degrees changes the RA seen at a fixed azimuth/altitude by d (mod 360) and leaves DEC unchanged; shifting RA and sidereal time together leaves azimuth/altitude unchanged.", "quantifier": "all directions, latitudes, times and shifts", "why_tests_cant": "continuum", "anchors": ["esp32-telescope-sync/lib/telescope/src/telescope.cpp:horizontalToEquatorial", "esp32-telescope-sync/lib/telescope/src/telescope.cpp:equatorialToHorizontal"]}
{"id": "C33", "title": "Zenith and celestial pole", "statement": "The zenith has DEC = latitude and RA = sidereal time; the celestial pole has altitude = latitude and azimuth 0 (north).", "quantifier": "all latitudes and times", "why_tests_cant": "continuum", "anchors": ["esp32-telescope-sync/lib/telescope/src/telescope.cpp:horizontalToEquatorial", "esp32-telescope-sync/lib/telescope/src/telescope.cpp:equatorialToHorizontal"]}
{"id": "C34", "title": "Alignment points are kept, unique and sorted", "statement": "addVertexPair refuses a point whose orientation is already stored, otherwise adds it; the stored points stay sorted by azimuth, have pairwise distinct orientations and none is lost, as long as there are at most 63.", "quantifier": "every history of additions, clears and triangulations", "why_tests_cant": "unbounded histories", "anchors": ["esp32-telescope-sync/lib/alignment/src/alignment.cpp:addVertexPair"]}
{"id": "C35", "title": "Stored references are the given ones modulo 360", "statement": "Each stored point was given by the user with the same altitude reference and a reference azimuth that differs by 0, +360 or -360 degrees.", "quantifier": "every history of additions, clears and triangulations", "why_tests_cant": "unbounded histories", "anchors": ["esp32-telescope-sync/lib/alignment/src/alignment.cpp:addVertexPair:34-46"]}
{"id": "C36", "title": "The triangle list is well formed", "statement": "After each triangulation every triangle refers to three different stored points; with fewer than three points there are none.", "quantifier": "every set of points and every floating-point behaviour (NaN included)", "why_tests_cant": "all point sets", "anchors": ["esp32-telescope-sync/lib/alignment/src/alignment.cpp:TriangulateActual"]}
{"id": "C37", "title": "Only the triangle arrays can overflow", "statement": "Whatever the arithmetic does, no history reads or writes outside vertices[67], the matrices or the edge list, and the only possible out-of-bounds access is the write of a new triangle behind triangles[192] / complete[4n].", "quantifier": "every history and every floating-point behaviour (NaN included)", "why_tests_cant": "all point sets", "anchors": ["esp32-telescope-sync/lib/alignment/src/alignment.cpp:TriangulateActual:164-337"]}
{"id": "C39", "title": "Triangulation results do not depend on uninitialised memory", "statement": "The triangle list is a function of the point list only.", "quantifier": "every content of uninitialised variables", "why_tests_cant": "tests cannot control stack contents", "anchors": ["esp32-telescope-sync/lib/alignment/src/alignment.cpp:TriangulateActual:173,248-252", "esp32-telescope-sync/lib/alignment/src/alignment.cpp:CircumCircle:113"]}
{"id": "C40", "title": "One- and two-point alignment", "statement": "With one point the correction is the translation taking it to its reference; with two points it is the similarity (rotation, uniform scale, translation) taking both points to their references.", "quantifier": "all points", "why_tests_cant": "continuum", "anchors": ["esp32-telescope-sync/lib/alignment/src/alignment.cpp:updateTransformationMatrices:414-441", "esp32-telescope-sync/lib/linalg/src/NotSoBasicLinearAlgebra.h:Invert"]}
{"id": "C41", "title": "Three-point alignment maps the triangle onto its references", "statement": "For a non-degenerate triangle the correction is the affine map that takes each corner exactly to its reference.", "quantifier": "all non-degenerate triangles", "why_tests_cant": "continuum; all pivoting orders", "anchors": ["esp32-telescope-sync/lib/alignment/src/alignment.cpp:updateTransformationMatrices:442-464", "esp32-telescope-sync/lib/linalg/src/NotSoBasicLinearAlgebra.h:LUDecompose,LUSolve,Invert"]}
{"id": "C42", "title": "Regular matrices are inverted", "statement": "Invert returns the inverse of every regular 3x3 matrix (exact arithmetic), whatever pivoting does.", "quantifier": "all regular matrices", "why_tests_cant": "all regular matrices", "anchors": ["esp32-telescope-sync/lib/linalg/src/NotSoBasicLinearAlgebra.h:LUDecompose,LUSolve,Invert"]}
{"id": "C43", "title": "Reported transformation type matches the correction used", "statement": "NONE/POINT/LINE/TRIANGLE_IN/TRIANGLE_OUT are reported exactly when no, one, two-point, containing-triangle or nearest-triangle correction is applied; after clearAll the correction is the identity.", "quantifier": "every reachable alignment and orientation", "why_tests_cant": "all states", "anchors": ["esp32-telescope-sync/lib/alignment/src/alignment.cpp:getTransformationType", "esp32-telescope-sync/lib/alignment/src/alignment.cpp:getTransformationMatrix", "esp32-telescope-sync/lib/alignment/src/alignment.cpp:clearAll"]}
{"id": "C44", "title": "A direction inside a triangle is recognised", "statement": "In exact arithmetic isInTriangle accepts every point inside or on the triangle, and exactly those outside points whose area beyond the edges is below the tolerance.", "quantifier": "all points and triangles", "why_tests_cant": "continuum", "anchors": ["esp32-telescope-sync/lib/alignment/src/alignment.cpp:isInTriangle", "esp32-telescope-sync/lib/alignment/src/alignment.cpp:triangleArea"]}
{"id": "C45", "title": "Outside all triangles the nearest triangle is used", "statement": "nearestTriangle returns the index of a triangle whose centroid is at least as near as every other's, and some triangle whenever there is one.", "quantifier": "all alignments and directions", "why_tests_cant": "all states", "anchors": ["esp32-telescope-sync/lib/alignment/src/alignment.cpp:nearestTriangle"]}
{"id": "C46", "title": "At an alignment point the calibrated orientation is its reference", "statement": "getCalibratedOrientation at a stored orientation returns the stored reference azimuth modulo 360 and altitude.", "quantifier": "every alignment", "why_tests_cant": "all alignments", "anchors": ["esp32-telescope-sync/lib/alignment/src/alignment.cpp:getCalibratedOrientation"]}
{"id": "C47", "title": "Triangulating again changes nothing", "statement": "Calling TriangulateActual twice gives the same triangles and corrections as calling it once; a repeated sync at the same orientation changes nothing.", "quantifier": "every state", "why_tests_cant": "all states", "anchors": ["esp32-telescope-sync/lib/alignment/src/alignment.cpp:TriangulateActual", "esp32-telescope-sync/lib/telescope/src/telescope.cpp:addReferencePoint"]}
{"id": "C48", "title": "Task scheduler", "statement": "At most one task runs per loop pass; no task runs earlier than its period; across timer wrap-around the schedule continues; a due task runs within as many fast passes as there are tasks before it.", "quantifier": "every sequence of loop times including 32-bit wrap-around", "why_tests_cant": "71-minute wrap, unbounded histories", "anchors": ["esp32-telescope-sync/src/main.cpp:loop:438-776"]}
{"id": "C49", "title": "LED patterns", "statement": "For each mode the LED is on in exactly the documented windows of its period; 2X and 4X flash two and four times in five seconds; a flash of w ms is seen by every sequence of updates at most w ms apart.", "quantifier": "every time and every sampling schedule", "why_tests_cant": "unbounded schedules", "anchors": ["esp32-telescope-sync/lib/ledmanager/src/ledmanager.cpp:update"]}
{"id": "C50", "title": "LED mode selection", "statement": "After each 100 ms task the mode is BLINK_1HZ without a fix, FLASH_2X with a fix and a connected client, FLASH_1X otherwise.", "quantifier": "every state", "why_tests_cant": "all histories", "anchors": ["esp32-telescope-sync/src/main.cpp:loop:520-531"]}
{"id": "C51", "title": "GNSS loss is noticed", "statement": "gnssAvailable is true exactly when some sentence has been accepted and fewer than 20 polls have found the receiver silent since the last accepted one.", "quantifier": "every history of loop passes", "why_tests_cant": "unbounded histories", "anchors": ["esp32-telescope-sync/src/main.cpp:loop:559-579"]}
{"id": "C52", "title": "Heading filter", "statement": "Encoder frames with wrong check bits leave the heading unchanged; every good frame moves it 30% of the way to the reading; the heading stays within [0,360) after every history and converges geometrically to a constant reading (exactly in the reals, up to 1/10000 degree in binary32).", "quantifier": "every history of loop passes and every frame", "why_tests_cant": "unbounded histories, every float", "anchors": ["esp32-telescope-sync/src/main.cpp:loop:473-482"]}
{"id": "C53", "title": "Pitch uses the mean of the last 50 accelerometer samples", "statement": "After at least 50 samples, getMeanAcc returns the mean of exactly the last 50 samples per axis.", "quantifier": "every sample history", "why_tests_cant": "unbounded histories; ring buffer wrap", "anchors": ["esp32-telescope-sync/lib/lsm6wrapper/src/lsm6wrapper.cpp:accSample,getMeanAcc,meanVec3"]}
{"id": "C54", "title": "MQTT control", "statement": "The alignment is cleared exactly when a message starting with '1' arrives on a topic containing the control topic; the confirmation '0' does not trigger another reset.", "quantifier": "every message", "why_tests_cant": "unbounded topics and payloads", "anchors": ["esp32-telescope-sync/src/main.cpp:mqttCallback"]}
{"id": "C55", "title": "One client at a time", "statement": "While a client is connected, no new connection replaces it; a new client is accepted once it has gone.", "quantifier": "every sequence of connection events", "why_tests_cant": "unbounded histories", "anchors": ["esp32-telescope-sync/src/main.cpp:checkForConnections"]}
{"id": "C56", "title": "A complete TCP request is interpreted from its own bytes", "statement": "For a packet that is a complete request (not a 'K', 'P' or 's' request cut short) the reply and every effect of the pass depend only on the bytes of that packet, not on earlier packets or GNSS data left in the shared buffer.", "quantifier": "every packet, every device state and every previous buffer content", "why_tests_cant": "shared-buffer histories", "anchors": ["esp32-telescope-sync/src/main.cpp:loop:489-493", "esp32-telescope-sync/src/main.cpp:loop:713-717"]}
{"id": "C57", "title": "The published alignment points are the stored ones", "statement": "What an MQTT server receives on the topics actual and reference is '[' followed by the text [x,y], with two decimals for each stored point in order and ']'; formatting stays inside txBuffer[256] exactly when the texts of the points have at most 254 characters together.", "quantifier": "every state, number of points and coordinates", "why_tests_cant": "up to 63 points, all coordinates", "anchors": ["esp32-telescope-sync/src/main.cpp:loop:657-682"]}
{"id": "C58", "title": "Replies go to the requester", "statement": "When the Bluetooth callback and the passes of the main loop do not overlap in time, the bytes written to Bluetooth are exactly the reply to the Bluetooth request, the loop writes nothing to Bluetooth, and a Bluetooth request writes nothing to the TCP client.", "quantifier": "every state and request", "why_tests_cant": "all histories", "anchors": ["esp32-telescope-sync/src/main.cpp:onBluetoothData", "esp32-telescope-sync/src/main.cpp:loop"]}
{"id": "C59", "title": "Calibration data written is calibration data read", "statement": "readBinaryData after a successful writeBinaryData of the same length returns the same bytes; a failed or short read returns false.", "quantifier": "every data and file system state; every crash point", "why_tests_cant": "crash points", "anchors": ["esp32-telescope-sync/lib/persistency/src/persistency.cpp"]}
{"id": "C60", "title": "Node server answers a goto with that position", "statement": "A received goto message (20 bytes or more, not beginning with 's') is answered with a current-position message carrying the same RA and DEC words (in IEEE arithmetic within one unit and without an exception, extreme words aside), and the corrected position afterwards is the received one.", "quantifier": "every message, every telescope state", "why_tests_cant": "continuum; rounding", "anchors": ["node-server/src/server.ts:onConnect:237-263", "node-server/src/server.ts:unpackGoto", "node-server/src/server.ts:packCurrentPosition", "node-server/src/server.ts:Telescope"]}
{"id": "C61", "title": "Python server decodes every goto message", "statement": "Every 20-byte goto message received is decoded.", "quantifier": "every message", "why_tests_cant": "all messages", "anchors": ["python-server/server.py:handle:15-38"]}
{"id": "C97", "title": "Python server decodes exactly the messages without white space at the end", "statement": "A goto message is decoded, with the right hours and degrees, exactly when the top byte of its declination is not ASCII white space; longer input ends in an exception; any other 20 bytes are read as the signed and unsigned numbers they are.", "quantifier": "every message, every arithmetic", "why_tests_cant": "all messages", "anchors": ["python-server/server.py:handle:15-38"]}
{"id": "C98", "title": "What the Node server can send", "statement": "packCurrentPosition sends the position (cut to the unit below) exactly when RA is in [0 h, 24 h - 1 unit] and DEC in [-180, 180 - 1 unit] degrees, and throws otherwise.", "quantifier": "every position", "why_tests_cant": "continuum", "anchors": ["node-server/src/server.ts:packCurrentPosition:31-45"]}
{"id": "C100", "title": "Every position the Node server computes can be sent", "statement": "packCurrentPosition does not throw on a position computed by fromHorizontalPosition.", "quantifier": "every direction, latitude and sidereal time", "why_tests_cant": "continuum", "anchors": ["node-server/src/server.ts:fromHorizontalPosition:101-127", "node-server/src/server.ts:packCurrentPosition"]}
{"id": "C101", "title": "Node server NexStar replies", "statement": "The Node server answers exactly the listed NexStar requests, and its state-independent replies are the firmware's.", "quantifier": "every request string", "why_tests_cant": "all byte strings", "anchors": ["node-server/src/server.ts:NexStar:142-218", "esp32-telescope-sync/lib/nexstar/src/nexstar.cpp:handleRequest"]}
{"id": "C102", "title": "Firmware and Node server read a goto message alike", "statement": "For every goto message both servers decode the same right ascension, and declinations equal or 360 degrees apart; the Node server also takes length, type and the time in whole milliseconds from it.", "quantifier": "every message", "why_tests_cant": "all messages", "anchors": ["node-server/src/server.ts:unpackGoto:54-62", "esp32-telescope-sync/lib/telescope/src/telescope.cpp:unpackPosition:249-283"]}
{"id": "C62", "title": "Matrix inversion reads only the matrix", "statement": "Invert reads only the nine elements of its argument.", "quantifier": "every matrix", "why_tests_cant": "out-of-bounds reads of one element are silent", "anchors": ["esp32-telescope-sync/lib/linalg/src/NotSoBasicLinearAlgebra.h:50-69"]}
{"id": "C63", "title": "unpackPosition never reads outside the given data", "statement": "unpackPosition reads no byte at or beyond dataLength for any dataLength >= 0.", "quantifier": "every byte string and dataLength", "why_tests_cant": "out-of-bounds reads are silent", "anchors": ["esp32-telescope-sync/lib/telescope/src/telescope.cpp:unpackPosition"]}
{"id": "C64", "title": "Every position the telescope can report can be encoded", "statement": "packPosition and the NexStar e reply convert RA and DEC to uint32_t without undefined behaviour for every RA in [0,360) and DEC in [-90,90].", "quantifier": "every reportable position", "why_tests_cant": "continuum of positions; compilers hide the undefined conversion", "anchors": ["esp32-telescope-sync/lib/telescope/src/telescope.cpp:packPosition:211-217", "esp32-telescope-sync/lib/nexstar/src/nexstar.cpp:handleRequest:54-56"]}
{"id": "C65", "title": "Sixty-four alignment points can be stored", "statement": "No point is lost as long as at most MAX_ALIGNMENT_POINTS (64) points are added.", "quantifier": "every history of additions", "why_tests_cant": "long histories", "anchors": ["esp32-telescope-sync/lib/alignment/src/alignment.cpp:addVertexPair:50-52"]}
{"id": "C66", "title": "Reference azimuths stay within half a turn of the first point", "statement": "Every stored reference azimuth lies within 180 degrees of the reference azimuth of the first stored point.", "quantifier": "every history of additions", "why_tests_cant": "unbounded histories", "anchors": ["esp32-telescope-sync/lib/alignment/src/alignment.cpp:addVertexPair:34-46"]}
{"id": "C67", "title": "The triangle arrays never overflow", "statement": "TriangulateActual never needs more than 4n (192) triangles.", "quantifier": "every set of up to 63 points", "why_tests_cant": "all point sets", "anchors": ["esp32-telescope-sync/lib/alignment/src/alignment.cpp:TriangulateActual:164-337"]}
{"id": "C68", "title": "Degenerate triangles fall back to no correction", "statement": "When the matrix of a triangle is singular, Invert reports it and the identity is used.", "quantifier": "all singular matrices", "why_tests_cant": "all singular matrices", "anchors": ["esp32-telescope-sync/lib/linalg/src/NotSoBasicLinearAlgebra.h:LUDecompose,Invert", "esp32-telescope-sync/lib/alignment/src/alignment.cpp:updateTransformationMatrices:456-463"]}
{"id": "C69", "title": "A direction inside a triangle is recognised on the device", "statement": "With the float areas used on the device isInTriangle accepts every point inside the triangle.", "quantifier": "all points and triangles", "why_tests_cant": "float rounding", "anchors": ["esp32-telescope-sync/lib/alignment/src/alignment.cpp:isInTriangle", "esp32-telescope-sync/lib/alignment/src/alignment.cpp:triangleArea"]}
{"id": "C70", "title": "A sentence with '*' before '$' is rejected", "statement": "verifyChecksum returns false for each string in which '*' comes before '$'.", "quantifier": "every string", "why_tests_cant": "unbounded strings", "anchors": ["esp32-telescope-sync/lib/gnss/src/gnss.cpp:verifyChecksum"]}
{"id": "C71", "title": "Missing markers are rejected on the 64-bit test build too", "statement": "verifyChecksum returns false for each string without '$' or '*' where size_t has 64 bits.", "quantifier": "every string", "why_tests_cant": "silent out-of-bounds reads", "anchors": ["esp32-telescope-sync/lib/gnss/src/gnss.cpp:verifyChecksum:155-158"]}
{"id": "C72", "title": "Losing the fix keeps the hemisphere", "statement": "A sentence that reports no fix leaves the hemisphere flags that go with the kept position unchanged.", "quantifier": "every sentence without fix, every prior state", "why_tests_cant": "unbounded strings times states", "anchors": ["esp32-telescope-sync/lib/gnss/src/gnss.cpp:fromRMC:36-52", "esp32-telescope-sync/lib/gnss/src/gnss.cpp:fromGGA"]}
{"id": "C73", "title": "The time of day is decoded correctly with milliseconds", "statement": "For each hhmmss.sss time field the decoded second is ss and lies in 0..59.", "quantifier": "every time of day with every fraction of a second", "why_tests_cant": "float rounding at the end of a second", "anchors": ["esp32-telescope-sync/lib/gnss/src/gnss.cpp:fromRMC:26-29"]}
{"id": "C74", "title": "Lines without a sentence do not disturb the others", "statement": "fromBuffer parses every complete sentence exactly once and never an unfinished one, also when some lines contain no '$' (reception starting in the middle of a sentence).", "quantifier": "every buffer", "why_tests_cant": "unbounded buffers", "anchors": ["esp32-telescope-sync/lib/gnss/src/gnss.cpp:fromBuffer:193-205"]}
{"id": "C75", "title": "f_mod normalises on the device", "statement": "In IEEE double f_mod(a,n) lies in [0,n).", "quantifier": "every a and n>0", "why_tests_cant": "rounding corner cases near multiples of n", "anchors": ["esp32-telescope-sync/lib/helper/src/helper.cpp:f_mod"]}
{"id": "C76", "title": "Julian day numbers are consecutive up to year 9999", "statement": "julianDay grows by exactly one from each calendar day to the next in the years 6768..9999 as well.", "quantifier": "every Gregorian date of years 1..9999", "why_tests_cant": "float rounding for large years", "anchors": ["esp32-telescope-sync/lib/helper/src/helper.cpp:julianDay"]}
{"id": "C77", "title": "The position reply encodes southern declinations", "statement": "After a sync on a star south of the equator the 'e' reply returns the synced declination word.", "quantifier": "every southern declination", "why_tests_cant": "compilers hide the undefined conversion", "anchors": ["esp32-telescope-sync/lib/nexstar/src/nexstar.cpp:handleRequest:54-56"]}
{"id": "C78", "title": "Unknown requests are not read beyond their end on the device", "statement": "With ARDUINO defined handleRequest reads no byte at or beyond requestLength for unrecognised requests either.", "quantifier": "every unrecognised request", "why_tests_cant": "out-of-bounds reads are silent", "anchors": ["esp32-telescope-sync/lib/nexstar/src/nexstar.cpp:handleRequest:134-141", "esp32-telescope-sync/src/main.cpp:onBluetoothData"]}
{"id": "C79", "title": "The location answer is right south of the equator and west of Greenwich", "statement": "The 'w' reply encodes negative latitudes and longitudes to within one arc minute.", "quantifier": "every latitude and longitude", "why_tests_cant": "continuum of positions", "anchors": ["esp32-telescope-sync/lib/nexstar/src/nexstar.cpp:handleRequest:36-47"]}
{"id": "C80", "title": "The single status flash is seen with the 25 ms update rate", "statement": "In mode FLASH_1X_EVERY_5S every 5 s period contains an update that switches the LED on when update is called about every 25 ms, as the main loop does.", "quantifier": "every sampling schedule with gaps of 25 to 32 ms", "why_tests_cant": "unbounded schedules", "anchors": ["esp32-telescope-sync/lib/ledmanager/src/ledmanager.cpp:update", "esp32-telescope-sync/src/main.cpp:loop"]}
{"id": "C81", "title": "The LED pattern is regular for ever", "statement": "The LED shows the documented pattern at every time since boot, also after the 32-bit microsecond counter wraps around (after 71.6 minutes).", "quantifier": "every time", "why_tests_cant": "the wrap takes 71.6 minutes", "anchors": ["esp32-telescope-sync/lib/ledmanager/src/ledmanager.cpp:update"]}
{"id": "C82", "title": "The mean acceleration is right from the first sample on", "statement": "getMeanAcc returns the mean of the samples taken so far while fewer than 50 have been taken.", "quantifier": "every history of fewer than 50 samples", "why_tests_cant": "continuum of samples", "anchors": ["esp32-telescope-sync/lib/lsm6wrapper/src/lsm6wrapper.cpp:getMeanAcc"]}
{"id": "C83", "title": "A failed or interrupted write keeps the old calibration data", "statement": "If writeBinaryData fails or the power is lost during it, a later read still finds the previous data.", "quantifier": "every file system state and crash point", "why_tests_cant": "crash points", "anchors": ["esp32-telescope-sync/lib/persistency/src/persistency.cpp:writeBinaryData"]}
{"id": "C84", "title": "The 'alignment complete' answer reflects whether an alignment exists", "statement": "The 'J' request answers 1 exactly when the telescope currently holds at least one alignment point, however it was added or cleared.", "quantifier": "every history of syncs (NexStar and binary) and resets", "why_tests_cant": "unbounded histories", "anchors": ["esp32-telescope-sync/lib/nexstar/src/nexstar.cpp:handleRequest:77-80", "esp32-telescope-sync/src/main.cpp:mqttCallback", "esp32-telescope-sync/src/main.cpp:loop:500-511"]}
{"id": "C85", "title": "Every task keeps running however long a pass takes", "statement": "Whatever the duration of the loop passes, every periodic task is executed again and again.", "quantifier": "every schedule", "why_tests_cant": "unbounded schedules", "anchors": ["esp32-telescope-sync/src/main.cpp:loop:438-776"]}
{"id": "C86", "title": "A receiver that only sends garbage counts as lost", "statement": "gnssAvailable turns false when no sentence has been accepted for a long time.", "quantifier": "every history of polls", "why_tests_cant": "unbounded histories", "anchors": ["esp32-telescope-sync/src/main.cpp:loop:559-579"]}
{"id": "C87", "title": "The heading crosses north smoothly", "statement": "When the encoder reading moves from just below 360 to just above 0 degrees the filtered heading stays near north.", "quantifier": "every heading and frame near north", "why_tests_cant": "continuum", "anchors": ["esp32-telescope-sync/src/main.cpp:loop:473-482"]}
{"id": "C88", "title": "The heading reading is the encoder angle", "statement": "An encoder position p of 16384 steps per turn is read as p*360/16384 degrees.", "quantifier": "every frame", "why_tests_cant": "all frames", "anchors": ["esp32-telescope-sync/src/main.cpp:loop:473-482"]}
{"id": "C89", "title": "A TCP request is executed once", "statement": "One packet sent by the client leads to at most one reply.", "quantifier": "every history including read errors", "why_tests_cant": "socket error schedules", "anchors": ["esp32-telescope-sync/src/main.cpp:loop:489-493"]}
{"id": "C90", "title": "A cut-short TCP request does not use old bytes", "statement": "The reply to any packet, also to one that ends before its arguments, depends only on its bytes.", "quantifier": "every packet and buffer history", "why_tests_cant": "shared-buffer histories", "anchors": ["esp32-telescope-sync/src/main.cpp:loop:489-493", "esp32-telescope-sync/lib/nexstar/src/nexstar.cpp:handleRequest"]}
{"id": "C95", "title": "A binary-protocol client is served after a NexStar session", "statement": "After a NexStar client has been served (over TCP or Bluetooth) and has gone, a client using the binary protocol still receives position messages.", "quantifier": "every history", "why_tests_cant": "unbounded histories", "anchors": ["esp32-telescope-sync/src/main.cpp:loop:489-520", "esp32-telescope-sync/src/main.cpp:loop:588-600", "esp32-telescope-sync/src/main.cpp:onBluetoothData"]}
{"id": "C96", "title": "Position messages carry the calibrated position of the moment", "statement": "A 24-byte position message is sent only by the 500 ms task, only to a connected client while the GNSS is available and no NexStar session is active, and it is packPosition of the calibrated equatorial coordinates computed with the latitude and sidereal time of that pass.", "quantifier": "every state and pass", "why_tests_cant": "all histories", "anchors": ["esp32-telescope-sync/src/main.cpp:loop:690-720"]}
{"id": "C99", "title": "The heading does not depend on unspecified evaluation order", "statement": "The heading computed from the two bytes the encoder transfers is the same whichever of the two SPI transfers in the expression is evaluated first.", "quantifier": "every pair of bytes", "why_tests_cant": "compiler-dependent", "anchors": ["esp32-telescope-sync/src/main.cpp:loop:473-482"]}
{"id": "C91", "title": "Publishing alignment points stays inside the buffer", "statement": "Formatting the alignment points never writes outside txBuffer[256], however many points there are.", "quantifier": "every number of points and every coordinate", "why_tests_cant": "up to 63 points, all coordinates", "anchors": ["esp32-telescope-sync/src/main.cpp:loop:657-682"]}
{"id": "C92", "title": "Published alignment points are JSON", "statement": "The payload published on the topics actual and reference is a JSON text.", "quantifier": "every state", "why_tests_cant": "all coordinates", "anchors": ["esp32-telescope-sync/src/main.cpp:loop:657-682"]}
{"id": "C93", "title": "The built-in broker distributes the same text as the MQTT server", "statement": "The payload given to the built-in broker on the topics actual and reference is the list of points and nothing else.", "quantifier": "every state", "why_tests_cant": "buffer history", "anchors": ["esp32-telescope-sync/src/main.cpp:loop:657-682"]}
{"id": "C94", "title": "Bluetooth and main loop do not corrupt each other's replies", "statement": "The bytes written to a Bluetooth or TCP client are the reply to that client's request for each interleaving of the Bluetooth callback (which runs in another task) with the main loop.", "quantifier": "every interleaving", "why_tests_cant": "schedules", "anchors": ["esp32-telescope-sync/src/main.cpp:onBluetoothData", "esp32-telescope-sync/src/main.cpp:loop:489-498"]}
{"id": "C38", "title": "The triangulation is a Delaunay triangulation", "statement": "In exact arithmetic, for stored points that together with the three frame points (20 box sizes around) are in general position (no three on a line, no four on a circle, altitudes equal or 1e-6 degrees apart): no stored or frame point lies inside or on the circumcircle of a triangle, every triple of stored points with such an empty circle is one of the triangles, and triangles do not overlap.", "quantifier": "every point set in general position and every history that stored it", "why_tests_cant": "all point sets", "anchors": ["esp32-telescope-sync/lib/alignment/src/alignment.cpp:TriangulateActual:164-337", "esp32-telescope-sync/lib/alignment/src/alignment.cpp:CircumCircle"]}
{"id": "C103", "title": "Directions in the bounding box are covered by a triangle or by an empty-circle triangle with a frame point", "statement": "In exact arithmetic and general position every direction in the bounding box of the stored points lies in one of the triangles, or in a triangle that has a frame point as a corner and an empty circumcircle.", "quantifier": "every point set in general position and every direction", "why_tests_cant": "all point sets and directions", "anchors": ["esp32-telescope-sync/lib/alignment/src/alignment.cpp:TriangulateActual:164-337"]}
{"id": "C104", "title": "The hull of the stored points is covered", "statement": "Every direction inside a triangle of three stored points lies in a triangle of the triangulation.", "quantifier": "every point set in general position", "why_tests_cant": "all point sets", "anchors": ["esp32-telescope-sync/lib/alignment/src/alignment.cpp:TriangulateActual:164-337"]}
{"id": "C105", "title": "The alignment follows the user's commands", "statement": "From power-on, whatever the passes of loop() and the Bluetooth requests, the state of the alignment is what the Alignment API makes of the user's commands in order: one add-and-triangulate for each NexStar sync request or Stellarium goto message at the orientation, place and time of that moment and with the coordinates it names, one clear for each MQTT reset, and nothing else.", "quantifier": "every history of the device from boot", "why_tests_cant": "histories are unbounded interleavings of seven tasks, packets, messages and Bluetooth requests", "anchors": ["esp32-telescope-sync/src/main.cpp:loop:436-790", "esp32-telescope-sync/src/main.cpp:onBluetoothData:201-209", "esp32-telescope-sync/src/main.cpp:mqttCallback:138-169", "esp32-telescope-sync/lib/nexstar/src/nexstar.cpp:handleRequest:9-143"]}
{"id": "C106", "title": "Invariants of the running device's alignment", "statement": "After any history from boot: 0..63 points, sorted by azimuth; unless more than 63 were asked for, exactly the synchronised orientations since the last reset, and every triangle refers to three different stored points; the correction is defined for every direction.", "quantifier": "every history of the device from boot, every direction", "why_tests_cant": "unbounded histories", "anchors": ["esp32-telescope-sync/lib/alignment/src/alignment.cpp:addVertexPair:39-86", "esp32-telescope-sync/lib/alignment/src/alignment.cpp:getTransformationMatrix:343-378", "esp32-telescope-sync/src/main.cpp:loop:436-790"]}
{"id": "C107", "title": "Memory safety of whole device histories", "statement": "A history in which every Bluetooth request is known or has eight bytes, every sync has room for its triangles, serial lines of the three kinds have enough fields, and the published point lists fit the buffer makes no out-of-bounds access and reads no indeterminate memory.", "quantifier": "every such history from boot, every arithmetic, every sorting qsort, every strtof that stops at a comma", "why_tests_cant": "unbounded histories", "anchors": ["esp32-telescope-sync/src/main.cpp:loop:436-790", "esp32-telescope-sync/src/main.cpp:onBluetoothData:201-209", "esp32-telescope-sync/lib/nexstar/src/nexstar.cpp:handleRequest:9-143"]}
{"id": "C108", "title": "With no stored points no correction is applied", "statement": "When the alignment holds no points the transformation type is NONE and orientations are passed through.", "quantifier": "every history of the alignment object", "why_tests_cant": "unbounded histories", "anchors": ["esp32-telescope-sync/lib/alignment/src/alignment.cpp:addVertexPair:39-86", "esp32-telescope-sync/lib/alignment/src/alignment.cpp:TriangulateActual:88-95", "esp32-telescope-sync/lib/alignment/src/alignment.cpp:getTransformationType:380-410"]}
{"id": "C109", "title": "Node server and firmware place a horizontal direction at the same point of the sky", "statement": "For every direction, latitude and sidereal time the Node server's stored position has the firmware's declination and, in degrees, the firmware's right ascension up to whole turns, and its right ascension is from 0 to below 36 hours.", "quantifier": "every azimuth, altitude, latitude, sidereal time (exact arithmetic)", "why_tests_cant": "relation of two programs over continuous inputs", "anchors": ["node-server/src/server.ts:fromHorizontalPosition:101-139", "esp32-telescope-sync/lib/telescope/src/telescope.cpp:horizontalToEquatorial"]}
{"id": "C110", "title": "Points inside triangles of up to 400 square degrees are recognised in double arithmetic", "statement": "In IEEE double arithmetic the containment test accepts every point inside (or on the border of) a triangle of at most 400 square degrees with coordinates up to 1000, and accepts no point whose three partial areas exceed the area of the triangle by 0.0002 or more.", "quantifier": "every point and triangle, all roundings", "why_tests_cant": "error analysis over all doubles", "anchors": ["esp32-telescope-sync/lib/alignment/src/alignment.cpp:isInTriangle:256-268"]}
{"id": "C111", "title": "A corner always counts as inside its triangle", "statement": "In IEEE double arithmetic the containment test accepts each corner of a triangle, whatever the size and shape, and so at every stored point that is a corner of a triangle the transformation type is 'inside a triangle'.", "quantifier": "every triangle of doubles; every history", "why_tests_cant": "all doubles, unbounded histories", "anchors": ["esp32-telescope-sync/lib/alignment/src/alignment.cpp:isInTriangle:256-268", "esp32-telescope-sync/lib/alignment/src/alignment.cpp:getTransformationType:380-410"]}
{"id": "C112", "title": "Start-up picks one network mode", "statement": "The shipped firmware becomes a client of the configured network exactly when that answers in time (at one of the first six questions and again right after, or at the seventh); otherwise it opens its access point, if that succeeds; never both. If a connection lasts once it is there, this means: client exactly if connected after five seconds.", "quantifier": "every sequence of answers of the Wi-Fi module and every other hardware answer", "why_tests_cant": "infinitely many answer sequences", "anchors": ["esp32-telescope-sync/src/main.cpp:setup:211-400"]}
{"id": "C113", "title": "Start-up sets up exactly the services that can work", "statement": "The TCP server (port 10001) is started exactly once if there is a network mode and not otherwise; likewise the broker, the MQTT client (client mode only), the sensor calibration, the Bluetooth handlers and the Wi-Fi handlers; the availability flags say so. The serial line of the receiver and the bus of the encoder are opened exactly if switched on, and are in the shipped firmware.", "quantifier": "every setting of the compile-time switches, every hardware answer", "why_tests_cant": "512 builds times unboundedly many hardware behaviours", "anchors": ["esp32-telescope-sync/src/main.cpp:setup:211-400"]}
{"id": "C114", "title": "Start-up always ends", "statement": "setup() waits at most six seconds in total, exactly one second per failed question to the Wi-Fi module, switches the LED on first and leaves it in state READY, whatever is missing.", "quantifier": "every setting of the switches, every hardware answer, any number of files", "why_tests_cant": "unbounded", "anchors": ["esp32-telescope-sync/src/main.cpp:setup:211-400"]}
{"id": "C115", "title": "The device uses only services that were set up", "statement": "In every history from power-on: TCP traffic and broker messages appear only with a network mode, MQTT traffic only as client of the configured network, Bluetooth replies only if Bluetooth started.", "quantifier": "every hardware, every history", "why_tests_cant": "unbounded histories", "anchors": ["esp32-telescope-sync/src/main.cpp:setup:211-400", "esp32-telescope-sync/src/main.cpp:loop:438-789"]}
{"id": "C116", "title": "Without the orientation sensor no position is reported", "statement": "In every history from power-on without a working sensor, only GNSS data and reset confirmations are published and no 24-byte position message is sent.", "quantifier": "every hardware without sensor, every history", "why_tests_cant": "unbounded histories", "anchors": ["esp32-telescope-sync/src/main.cpp:setup:307-335", "esp32-telescope-sync/src/main.cpp:loop:581-696"]}
{"id": "C117", "title": "A reset message clears the alignment in both network modes", "statement": "A message '1' on the control topic empties the alignment also when the device is an access point with its own broker.", "quantifier": "every history as access point", "why_tests_cant": "unbounded histories", "anchors": ["esp32-telescope-sync/src/main.cpp:mqttCallback:138-169", "esp32-telescope-sync/src/main.cpp:setup:337-360", "esp32-telescope-sync/lib/mqttbroker/src/mqttbroker.cpp:onPublish:20-23"]}
{"id": "C118", "title": "The Wi-Fi connection is restored in client mode", "statement": "In client mode every loss of the connection starts exactly one new attempt, and other Wi-Fi events start none.", "quantifier": "every sequence of Wi-Fi events, every hardware", "why_tests_cant": "unbounded sequences", "anchors": ["esp32-telescope-sync/src/main.cpp:onWifiDisconnect:171-176", "esp32-telescope-sync/src/main.cpp:setup:246-253"]}
{"id": "C119", "title": "The device joins the configured network when it appears later", "statement": "After starting as access point the device joins the configured network once that appears.", "quantifier": "every sequence of Wi-Fi events", "why_tests_cant": "unbounded sequences", "anchors": ["esp32-telescope-sync/src/main.cpp:setup:230-276"]}
{"id": "C120", "title": "After one star the telescope reports the sky relative to it", "statement": "From power-on or the last reset: after a sync on one star, whatever else happened and wherever the tube was turned since, the reported position is the point of the sky seen in the direction of the star at the moment of the sync plus the turns of the tube in azimuth and altitude.", "quantifier": "every history with one synchronised orientation since the last reset, every latitude and sidereal time (exact arithmetic)", "why_tests_cant": "unbounded histories, all reals", "anchors": ["esp32-telescope-sync/src/main.cpp:loop:438-789", "esp32-telescope-sync/lib/telescope/src/telescope.cpp:addReferencePoint:29-36", "esp32-telescope-sync/lib/telescope/src/telescope.cpp:getCalibratedOrientation:38-48"]}
{"id": "C121", "title": "An unmoved telescope drifts with the sky", "statement": "With one or two stars synchronised and the tube where it was for one of them, the reported declination is that star's and the right ascension is the star's plus the sidereal time elapsed since the sync, modulo 360.", "quantifier": "every history with one or two synchronised orientations since the last reset, every later time (exact arithmetic)", "why_tests_cant": "unbounded histories, all reals", "anchors": ["esp32-telescope-sync/src/main.cpp:loop:438-789", "esp32-telescope-sync/lib/telescope/src/telescope.cpp:addReferencePoint:29-36", "esp32-telescope-sync/lib/telescope/src/telescope.cpp:getCalibratedOrientation:38-48"]}
{"id": "C122", "title": "Stellarium is sent the star that was synchronised", "statement": "In the situation of C121 with a star of the northern sky, every 24-byte message sent to a TCP client encodes that right ascension and declination to the nearest unit of the protocol.", "quantifier": "every history with one or two synchronised orientations, every following pass of the main loop", "why_tests_cant": "unbounded histories, all reals", "anchors": ["esp32-telescope-sync/src/main.cpp:loop:588-596", "esp32-telescope-sync/lib/telescope/src/telescope.cpp:packPosition:180-230"]}
{"id": "C123", "title": "A connected Stellarium client gets its position in time", "statement": "Once a client is accepted, stays connected, GNSS data is available, a sensor is present and no NexStar request has been answered, a position message is sent within four passes of the main loop once 500 ms have passed since the last run of that task, provided these take at most 20 ms.", "quantifier": "every history and every schedule of passes", "why_tests_cant": "unbounded histories and schedules", "anchors": ["esp32-telescope-sync/src/main.cpp:loop:438-789"]}
{"id": "C124", "title": "The device knows what the receiver said in complete sentences", "statement": "Whatever the schedule and whatever else happens: if every read of the GNSS port consists of complete sentences and an unfinished rest, the GNSS record of the device is the result of feeding exactly those sentences, in order, to the parser.", "quantifier": "every history of the device", "why_tests_cant": "unbounded histories and byte strings", "anchors": ["esp32-telescope-sync/src/main.cpp:loop:558-579", "esp32-telescope-sync/lib/gnss/src/gnss.cpp:fromBuffer:187-208"]}
{"id": "C125", "title": "A sentence is used however its bytes arrive", "statement": "A valid sentence that the receiver sends is used also when its bytes arrive in two reads of the GNSS port.", "quantifier": "every history, every sentence, every way to cut it", "why_tests_cant": "unbounded histories and byte strings", "anchors": ["esp32-telescope-sync/src/main.cpp:loop:558-579", "esp32-telescope-sync/lib/gnss/src/gnss.cpp:fromBuffer:187-208"]}
{"id": "C126", "title": "Matrices of every size are inverted", "statement": "Invert of a regular n x n matrix reports success and leaves the two-sided inverse in the result (exact arithmetic), for every n; the 3x3 inversion used by the alignment is that template at n = 3, for every arithmetic.", "quantifier": "every n, every regular matrix, every previous content of the result and of the temporaries", "why_tests_cant": "all sizes and matrices", "anchors": ["esp32-telescope-sync/lib/linalg/src/NotSoBasicLinearAlgebra.h:LUDecompose:35-147,LUSolve:149-191,Invert:193-229"]}
{"id": "C127", "title": "What Invert says about matrices that cannot be inverted", "statement": "Invert reports singularity exactly when a row is zero together with the element stored behind the row, and then leaves the result untouched; otherwise the result is a right inverse of a matrix that differs from the argument by at most 1e-20 in each element.", "quantifier": "every n, every matrix", "why_tests_cant": "all sizes and matrices", "anchors": ["esp32-telescope-sync/lib/linalg/src/NotSoBasicLinearAlgebra.h:LUDecompose:50-69,127-133,Invert:193-215"]}
{"id": "C128", "title": "Determinant of regular matrices", "statement": "Determinant returns the value of the determinant (any alternating multilinear function with value 1 at the unit matrix) for every regular matrix, and 0 for every matrix LUDecompose reports as singular, for which 0 is right (exact arithmetic).", "quantifier": "every n, every regular or reported matrix", "why_tests_cant": "all sizes and matrices", "anchors": ["esp32-telescope-sync/lib/linalg/src/NotSoBasicLinearAlgebra.h:Determinant:231-246"]}
{"id": "C129", "title": "Determinant of singular matrices", "statement": "Determinant returns 0 for a singular matrix.", "quantifier": "every n, every singular matrix", "why_tests_cant": "all sizes and matrices", "anchors": ["esp32-telescope-sync/lib/linalg/src/NotSoBasicLinearAlgebra.h:LUDecompose:127-133,Determinant:231-246"]}
{"id": "C130", "title": "The decomposition is a decomposition", "statement": "For a regular matrix A the views P, L, U that LUDecompose returns satisfy A = P L U with P a permutation, L unit lower triangular and U upper triangular with non-zero diagonal.", "quantifier": "every n, every regular matrix", "why_tests_cant": "all sizes and pivot orders", "anchors": ["esp32-telescope-sync/lib/linalg/src/NotSoBasicLinearAlgebra.h:LUDecompose:35-147", "esp32-telescope-sync/lib/linalg/src/ElementStorage.h:PermutationMatrix,LowerUnitriangularMatrix,UpperTriangularMatrix"]}
{"id": "C131", "title": "Matrix operators", "statement": "~A, A+B, A-B, A+=A, A*B, A*=B (also A*=A), Norm and Trace give the transpose, sum, difference, double, product, Frobenius norm and trace.", "quantifier": "every n, all matrices", "why_tests_cant": "all sizes and matrices", "anchors": ["esp32-telescope-sync/lib/linalg/src/BasicLinearAlgebra.h", "esp32-telescope-sync/lib/linalg/src/NotSoBasicLinearAlgebra.h:Norm:248,Trace:263"]}
{"id": "C132", "title": "A matrix can be assigned its own transpose", "statement": "A = ~A replaces A by its transpose.", "quantifier": "every n, every matrix", "why_tests_cant": "aliasing, all sizes", "anchors": ["esp32-telescope-sync/lib/linalg/src/BasicLinearAlgebra.h:operator=", "esp32-telescope-sync/lib/linalg/src/ElementStorage.h:Trans"]}
{"id": "C133", "title": "A sparse matrix behaves like a matrix", "statement": "As long as only non-zero values are written, and to at most tableSize different elements, every read of an element returns the value last written to it, or 0, whatever hash values collide.", "quantifier": "every history of reads and writes, every shape and table size", "why_tests_cant": "unbounded histories", "anchors": ["esp32-telescope-sync/lib/linalg/src/ElementStorage.h:Sparse:62-120"]}
{"id": "C134", "title": "A sparse matrix behaves like a matrix also after zeros or overflow", "statement": "Writing a zero to one element of a sparse matrix, or writing more elements than the table holds, leaves the other elements unchanged.", "quantifier": "every history of reads and writes", "why_tests_cant": "unbounded histories", "anchors": ["esp32-telescope-sync/lib/linalg/src/ElementStorage.h:Sparse:62-120"]}
{"id": "C135", "title": "A NexStar client is told the star that was synchronised", "statement": "With one or two stars synchronised since power-on or the last reset, a NexStar position request answered while the tube stands where a star was synchronised - over Bluetooth, or over TCP in the 100 ms task that first reads the sensors - is answered with that star: its declination to within one unit of the protocol and its right ascension plus the sidereal time elapsed, to within one unit. (Northern stars, or any star when out-of-range conversions wrap.)", "quantifier": "every history of the device with one or two synchronised orientations (exact arithmetic)", "why_tests_cant": "unbounded histories, all reals", "anchors": ["esp32-telescope-sync/lib/nexstar/src/nexstar.cpp:handleRequest", "esp32-telescope-sync/src/main.cpp:onBluetoothData:201-209", "esp32-telescope-sync/src/main.cpp:loop:487-513", "esp32-telescope-sync/lib/telescope/src/telescope.cpp:getCalibratedOrientation:38-48"]}
{"id": "C136", "title": "With three or more stars too, a synchronised star is reported as itself", "statement": "The same for three stars that are not on one line and got a triangle, and for any number of stars when the orientation is a corner of every triangle whose containment test accepts it.", "quantifier": "every history of the device with up to 63 synchronised orientations (exact arithmetic)", "why_tests_cant": "unbounded histories, all reals", "anchors": ["esp32-telescope-sync/lib/nexstar/src/nexstar.cpp:handleRequest", "esp32-telescope-sync/src/main.cpp:onBluetoothData:201-209", "esp32-telescope-sync/src/main.cpp:loop:487-513", "esp32-telescope-sync/lib/alignment/src/alignment.cpp:getTransformation", "esp32-telescope-sync/lib/telescope/src/telescope.cpp:getCalibratedOrientation:38-48"]}
{"id": "C137", "title": "Subscribers are told the receiver's position and time", "statement": "Every pass in which the 2 s task runs publishes, if the GNSS receiver is available, exactly one message on the gnss topic: validity, latitude, longitude, altitude, the date as YYYY-MM-DD and the time as hh:mm:ss with leading zeros, and the numbers of satellites, all as the device holds them; without a receiver nothing. It is never too long to be sent when latitude, longitude and altitude print in at most 51 characters together.", "quantifier": "every history of the device and every pass after it", "why_tests_cant": "unbounded histories; every position, date and count", "anchors": ["esp32-telescope-sync/src/main.cpp:loop:707-771"]}
{"id": "C138", "title": "Subscribers are told the state of the telescope", "statement": "Every pass in which the 500 ms task runs with a sensor tells the MQTT server, in this order, altitude, azimuth, right ascension, declination, sidereal time, pitch, heading, temperature, the alignment, its points and the matrix in use, as they are after that pass - each of them unless it is too long for the client's packet buffer; the built-in broker gets the same topics. Altitude and azimuth name the corrected direction of the tube (exact arithmetic); temperature, heading and pitch are those read last.", "quantifier": "every history of the device and every pass after it", "why_tests_cant": "unbounded histories; every state of the device", "anchors": ["esp32-telescope-sync/src/main.cpp:loop:545-704", "esp32-telescope-sync/src/main.cpp:loop:464-484", "esp32-telescope-sync/src/main.cpp:publishMessage"]}
{"id": "C139", "title": "The alignment message counts the synchronised stars", "statement": "As long as at most 63 different orientations were synchronised between resets, the alignment message sent in the 500 ms task gives their number since the last reset, the number of triangles, and the kind of correction: 0 for none, 1 for one star, 2 for two stars or more without a triangle, 3 or 4 with triangles (which takes at least three stars).", "quantifier": "every history of the device with at most 63 synchronised orientations", "why_tests_cant": "unbounded histories", "anchors": ["esp32-telescope-sync/src/main.cpp:loop:648-652", "esp32-telescope-sync/lib/alignment/src/alignment.cpp:getTransformationType", "esp32-telescope-sync/lib/alignment/src/alignment.cpp:addVertexPair"]}
{"id": "C140", "title": "What the MQTT server is told is JSON", "statement": "Every message published to the MQTT server on a topic other than actual and reference is a JSON text, provided printf prints numbers as JSON numbers (no nan or inf).", "quantifier": "every history of the device, every event after it and every message it publishes", "why_tests_cant": "unbounded histories; every state of the device", "anchors": ["esp32-telescope-sync/src/main.cpp:loop:545-771", "esp32-telescope-sync/src/main.cpp:mqttCallback:138-169"]}
{"id": "C141", "title": "The reported pitch is the tilt of the tube", "statement": "Once 50 accelerometer samples were read whose mean is gravity seen by a sensor at some tilt (plus its zero points), the next 100 ms task sets the pitch, and the altitude of the tube's raw orientation, to that tilt: exactly in exact arithmetic, to within 0.01 degrees in IEEE arithmetic.", "quantifier": "every history of the device, every tilt and strength of gravity", "why_tests_cant": "unbounded histories, continuum", "anchors": ["esp32-telescope-sync/src/main.cpp:loop:442-484", "esp32-telescope-sync/lib/lsm6wrapper/src/lsm6wrapper.cpp:31-125"]}
{"id": "C142", "title": "The pitch is right from the start", "statement": "With the tube at rest the first pitch reported after power-on is its tilt.", "quantifier": "every history with fewer than 50 samples", "why_tests_cant": "unbounded histories, continuum", "anchors": ["esp32-telescope-sync/src/main.cpp:loop:442-484", "esp32-telescope-sync/lib/lsm6wrapper/src/lsm6wrapper.cpp:31-125"]}
{"id": "C143", "title": "Concurrent synchronisation never corrupts memory", "statement": "Stars may be synchronised over Bluetooth while loop() synchronises a star received over TCP, clears the list or stores a new orientation: however the statements of these calls interleave, no access leaves the star list, the number of stars stays between 0 and 63 and is never more than the number before plus the stars synchronised since; a call that is not interrupted does exactly what it does alone.", "quantifier": "any number of concurrent calls, every interleaving of their statements", "why_tests_cant": "all schedules", "anchors": ["esp32-telescope-sync/lib/alignment/src/alignment.cpp:addVertexPair:25-55", "esp32-telescope-sync/lib/alignment/src/alignment.cpp:clearAll:57-61", "esp32-telescope-sync/lib/telescope/src/telescope.cpp:setOrientation:17-21", "esp32-telescope-sync/lib/telescope/src/telescope.cpp:addReferencePoint:29-36", "esp32-telescope-sync/src/main.cpp:onBluetoothData:201-209", "esp32-telescope-sync/src/main.cpp:loop:487-513"]}
{"id": "C144", "title": "Stars synchronised at the same time are both kept", "statement": "Two stars synchronised at different orientations, one over Bluetooth and one over TCP, are both in the list afterwards, each with its own reference, whatever the interleaving.", "quantifier": "every interleaving of two synchronisations", "why_tests_cant": "all schedules", "anchors": ["esp32-telescope-sync/lib/alignment/src/alignment.cpp:addVertexPair:25-55", "esp32-telescope-sync/src/main.cpp:onBluetoothData:201-209", "esp32-telescope-sync/src/main.cpp:loop:487-513"]}
{"id": "C145", "title": "A star is stored at an orientation the tube had", "statement": "The orientation stored with a star synchronised over Bluetooth is one of those loop() set.", "quantifier": "every interleaving of a synchronisation and an update of the orientation", "why_tests_cant": "all schedules", "anchors": ["esp32-telescope-sync/lib/telescope/src/telescope.cpp:setOrientation:17-21", "esp32-telescope-sync/lib/telescope/src/telescope.cpp:addReferencePoint:29-36", "esp32-telescope-sync/src/main.cpp:onBluetoothData:201-209", "esp32-telescope-sync/src/main.cpp:loop:464-484"]}
{"id": "C146", "title": "Gyroscope samples are averaged and noise removed", "statement": "Samples stored at offsets 0, 1, ... n-1 of a buffer of at least 3n elements never touch memory behind them, and the mean over n is the mean of each axis (exact arithmetic); clipping sets a component within 0.01 rad/s of zero to zero and keeps any other. A magnetometer radius is accepted exactly from 144 to 1280.", "quantifier": "every number of samples, all values", "why_tests_cant": "unbounded lengths, all reals", "anchors": ["esp32-telescope-sync/lib/lsm6wrapper/src/lsm6wrapper.cpp:68-125", "esp32-telescope-sync/lib/bnodata/src/bnodata.cpp:19-24"]}
{"id": "C147", "title": "A Stellarium client is told the star that was synchronised, with any number of stars", "statement": "A position message sent while the tube stands where a star was synchronised carries that star: its declination as a signed number and its right ascension plus the sidereal time elapsed, both to the nearest unit of the protocol. One or two stars, three with a triangle, or any number when the star is a corner of every triangle whose containment test accepts it. (Northern stars, or any star when out-of-range conversions wrap.)", "quantifier": "every history of the device with up to 63 synchronised orientations and every pass after it (exact arithmetic)", "why_tests_cant": "unbounded histories, all reals", "anchors": ["esp32-telescope-sync/src/main.cpp:loop:545-704", "esp32-telescope-sync/lib/telescope/src/telescope.cpp:packPosition", "esp32-telescope-sync/lib/telescope/src/telescope.cpp:getCalibratedOrientation:38-48", "esp32-telescope-sync/lib/alignment/src/alignment.cpp:getTransformation"]}
{"id": "C148", "title": "Coordinate conversions are accurate in double precision", "statement": "With every operation rounded to IEEE double precision and a mathematics library accurate to 2^-50, the direction computed for a star is the one in which it stands within 2^-37 per component of the unit vector, the star computed for a direction is seen there within 2^-36, and star to direction and back returns the star (declination within 1.5e-8 degrees, right ascension within 4e-7 degrees up to declination 85).", "quantifier": "all angles up to several turns, all latitudes and sidereal times, every library of that accuracy", "why_tests_cant": "all binary64 values and all libraries; the poles and the zenith are singular", "anchors": ["esp32-telescope-sync/lib/telescope/src/telescope.cpp:horizontalToEquatorial:73-94", "esp32-telescope-sync/lib/telescope/src/telescope.cpp:equatorialToHorizontal:125-151"]}
{"id": "C149", "title": "After one star the device is right in double precision", "statement": "After one synchronised star the reported position is, within 2^-35, the point of the sky seen in the direction of the star turned by what the tube has turned since; with the tube still there it is the star moved by the sidereal time elapsed (within 2^-32; up to declination 85 within 6e-8 degrees in declination and 1.5e-6 in right ascension).", "quantifier": "every history of the device from power-on whose synchronised orientations since the last reset are one, all later places and times", "why_tests_cant": "unbounded histories, all binary64 values", "anchors": ["esp32-telescope-sync/lib/telescope/src/telescope.cpp:getCalibratedOrientation:38-48", "esp32-telescope-sync/lib/alignment/src/alignment.cpp:updateTransformationMatrices:412-470", "esp32-telescope-sync/src/main.cpp:loop:464-596"]}
{"id": "C150", "title": "The message to Stellarium carries the star in double precision", "statement": "A position message sent after one synchronised star, the tube still on it, carries the star (moved by the sidereal time elapsed) within 2e-6 degrees in right ascension and 2e-7 degrees in declination.", "quantifier": "every history with one synchronised orientation, every pass of loop() that sends a position; declinations 1e-5 to 85, right ascensions not within 1e-5 of 0", "why_tests_cant": "unbounded histories, all binary64 values", "anchors": ["esp32-telescope-sync/src/main.cpp:loop:555-596", "esp32-telescope-sync/lib/telescope/src/telescope.cpp:packPosition:180-230"]}
{"id": "C151", "title": "A sync request always names a place on the sky", "statement": "On the device, whatever bytes the two coordinate fields of a sync request contain (letters, spaces, signs, NULs, 0x), the request is handled as a sync at the angles of two 32-bit words: right ascension in [0,360), declination in [-90,270]. Leading hex digits give the word, a 0x prefix is skipped, a minus sign gives the complement, anything else gives 0.", "quantifier": "every request of at least 18 bytes beginning with 's', every telescope and receiver state, every buffer content behind the request, exact and IEEE arithmetic", "why_tests_cant": "the fields have 2^128 contents and strtoul has special cases for white space, signs, prefixes, overflow", "anchors": ["esp32-telescope-sync/lib/nexstar/src/nexstar.cpp:handleRequest:87-99"]}
{"id": "C152", "title": "A malformed sync request is refused", "statement": "A sync request whose fields are not two numbers of eight hexadecimal digits changes nothing and is not acknowledged.", "quantifier": "every request", "why_tests_cant": "malformed requests are unlimited in number", "anchors": ["esp32-telescope-sync/lib/nexstar/src/nexstar.cpp:handleRequest:87-99"]}
{"id": "C153", "title": "An overlong satellite count saturates", "statement": "A GSV sentence whose count of satellites in view has any number of digits is decoded without undefined behaviour: the device keeps the count, or 2^31-1 if it is larger; a 64-bit host keeps the low 32 bits, or 2^32-1 from 2^63 on.", "quantifier": "every GSV sentence with a right check sum", "why_tests_cant": "digit strings of every length", "anchors": ["esp32-telescope-sync/lib/gnss/src/gnss.cpp:fromGSV"]}
{"id": "C154", "title": "Two stars: the aligned position is right in double precision", "statement": "With exactly two stars stored and every operation rounded to IEEE double precision, an orientation that is s of the way along and t across the line from the first tube position to the second is reported s along and t across the line from the first reference to the second, up to whole turns of azimuth. The error in degrees is at most L*(gain*H)^2/10^7 + 1e-12, gain = (1+361/d)(1+181/d) for stars d degrees apart, L bounding |1-s|+|s-t|+|t|, H >= 1 bounding the number the matrix inversion reads behind its array. In particular both stars are reproduced.", "quantifier": "every history of alignment calls ending in a triangulation with two stars at least one degree apart, every orientation, every qsort, every value read behind the matrix", "why_tests_cant": "all binary64 values; accuracy of an LU inversion depends on the data continuously", "anchors": ["esp32-telescope-sync/lib/alignment/src/alignment.cpp:updateTransformationMatrices:410-470", "esp32-telescope-sync/lib/alignment/src/alignment.cpp:getCalibratedOrientation:516-524", "esp32-telescope-sync/lib/linalg/src/NotSoBasicLinearAlgebra.h:LUDecompose,Invert"]}
{"id": "C155", "title": "Three or more stars: the aligned position is right in double precision", "statement": "With a triangle used for the orientation (one containing it, or the nearest when none does), an orientation with affine weights c1, c2, c3 with respect to the tube positions at its corners is reported with the same weights of the reference directions, within 84*L*(H/D)^2 + 1e-12 degrees, D twice the area of the triangle, L bounding |c1|+|c2|+|c3|. With three stars and a triangle each star is reproduced.", "quantifier": "every history of alignment calls ending in a triangulation that gave a triangle, every orientation, every qsort, every value read behind the matrix", "why_tests_cant": "all binary64 values, all triangulations", "anchors": ["esp32-telescope-sync/lib/alignment/src/alignment.cpp:updateTransformationMatrices:410-470", "esp32-telescope-sync/lib/alignment/src/alignment.cpp:getTransformationMatrix:484-514", "esp32-telescope-sync/lib/alignment/src/alignment.cpp:getCalibratedOrientation:516-524"]}
{"id": "C156", "title": "After two or three stars the device is right in double precision", "statement": "With the tube back where one of two or three stars was synchronised the position reported is that star moved by the sidereal time elapsed, within 4e + 2^-32 per component of the unit vector, e the error of C154/C155.", "quantifier": "every history of the device from power-on whose synchronised orientations since the last reset are two, or three with a triangle, all later places and times, every mathematics library accurate to 2^-50", "why_tests_cant": "unbounded histories, all binary64 values", "anchors": ["esp32-telescope-sync/src/main.cpp:loop:464-596", "esp32-telescope-sync/lib/telescope/src/telescope.cpp:addReferencePoint:29-36", "esp32-telescope-sync/lib/telescope/src/telescope.cpp:getCalibratedOrientation:38-48", "esp32-telescope-sync/lib/alignment/src/alignment.cpp:updateTransformationMatrices:410-470"]}
{"id": "C157", "title": "Coordinate conversions never give NaN or infinity and are accurate on actual doubles", "statement": "For every finite double input of moderate size the two coordinate conversions return two finite doubles (no NaN, no infinity, whatever the signs of zeros), and these are accurate: star to direction within 2^-37, direction to star within 2^-36, and there and back within 2^-33 (up to declination 85: 3e-8 degrees in declination, 7e-7 in right ascension).", "quantifier": "all pairs of finite doubles up to several turns, all latitudes and sidereal times, every library of C99 Annex F accurate to 2^-50", "why_tests_cant": "2^64 values per argument; signed zeros, overflow and NaN propagation", "anchors": ["esp32-telescope-sync/lib/telescope/src/telescope.cpp:horizontalToEquatorial:73-94", "esp32-telescope-sync/lib/telescope/src/telescope.cpp:equatorialToHorizontal:125-151"]}
{"id": "C158", "title": "After one star the device is right on actual doubles", "statement": "After one synchronised star every position the device computes consists of finite doubles and is, within 2^-35, the point of the sky seen in the direction of the star turned by what the tube has turned since; with the tube still there it is the star moved by the sidereal time elapsed (within 2^-32; up to declination 85 within 6e-8 and 1.5e-6 degrees); the sidereal time computed for any civil date is finite and at most 361 in magnitude.", "quantifier": "every history of the device from power-on whose synchronised orientations since the last reset are one, all later places and times", "why_tests_cant": "unbounded histories, all doubles including signed zeros", "anchors": ["esp32-telescope-sync/lib/helper/src/helper.cpp:julianDay:5-16", "esp32-telescope-sync/lib/helper/src/helper.cpp:getLocalSiderealTimeDegrees:19-24", "esp32-telescope-sync/lib/telescope/src/telescope.cpp:getCalibratedOrientation:38-48", "esp32-telescope-sync/src/main.cpp:loop:464-596"]}
{"id": "C159", "title": "The message to Stellarium carries the star on actual doubles", "statement": "A position message sent in any pass after one synchronised star, the tube still on it, is the 24-byte message carrying the star (moved by the sidereal time elapsed) within 2e-6 degrees in right ascension and 2e-7 in declination, computed with actual doubles (NaN and infinity cannot arise, the conversions to uint32_t are defined).", "quantifier": "every history with one synchronised orientation, every pass that sends a position, all finite doubles of ordinary size; declinations 1e-5 to 85, right ascensions not within 1e-5 of 0", "why_tests_cant": "unbounded histories, all doubles including signed zeros", "anchors": ["esp32-telescope-sync/src/main.cpp:loop:555-596", "esp32-telescope-sync/lib/telescope/src/telescope.cpp:packPosition:180-230"]}
{"id": "C160", "title": "The NexStar position reply carries the star on actual doubles", "statement": "A position request over Bluetooth after one synchronised star, the tube still on it, is answered with 18 bytes whose two hexadecimal words are the star (moved by the sidereal time elapsed) within 2e-6 degrees in right ascension and 2e-7 in declination, computed with actual doubles; negative declinations where the conversion to uint32_t wraps.", "quantifier": "every history with one synchronised orientation, all finite doubles of ordinary size, declinations up to 85", "why_tests_cant": "unbounded histories, all doubles including signed zeros", "anchors": ["esp32-telescope-sync/lib/nexstar/src/nexstar.cpp:handleRequest:48-66", "esp32-telescope-sync/src/main.cpp:onBluetoothData"]}
{"id": "C161", "title": "Two stars: the alignment is right on actual doubles", "statement": "With exactly two stars stored (finite doubles), an orientation s along and t across the line of the tube positions is reported as two finite doubles, s along and t across the line of the references up to whole turns of azimuth, within L*(gain*H)^2/10^7 + 1e-12 degrees: the LU inversion, the matrix product and the solution produce no NaN, no infinity and no overflow. In particular both stars are reproduced.", "quantifier": "every history of alignment calls ending in a triangulation with two stars at least one degree apart, every orientation, every qsort, every double read behind the matrix", "why_tests_cant": "2^64 values per number; signed zeros, overflow and NaN propagation through an LU decomposition", "anchors": ["esp32-telescope-sync/lib/alignment/src/alignment.cpp:updateTransformationMatrices:410-470", "esp32-telescope-sync/lib/alignment/src/alignment.cpp:getCalibratedOrientation:516-524", "esp32-telescope-sync/lib/linalg/src/matrix inversion and product"]}
{"id": "C162", "title": "Three or more stars: the alignment is right on actual doubles", "statement": "With a triangle used for the orientation, an orientation with affine weights c1, c2, c3 with respect to its tube positions is reported as two finite doubles with the same weights of the reference directions, within 84*L*(H/D)^2 + 1e-12 degrees; with three stars and a triangle each star is reproduced. Outside all triangles the triangle is the one whose centroid is nearest, up to a relative error of 1e-6 of the squared distance. No NaN, no infinity, no overflow, whatever the signs of zeros.", "quantifier": "every history of alignment calls ending in a triangulation that gave a triangle, every orientation, every qsort, every double read behind the matrix", "why_tests_cant": "2^64 values per number, all triangulations", "anchors": ["esp32-telescope-sync/lib/alignment/src/alignment.cpp:updateTransformationMatrices:410-470", "esp32-telescope-sync/lib/alignment/src/alignment.cpp:getTransformationMatrix:484-514", "esp32-telescope-sync/lib/alignment/src/alignment.cpp:getCalibratedOrientation:516-524"]}
{"id": "C163", "title": "After two, three or more stars the device is right on actual doubles", "statement": "With the tube back where a star was synchronised (two stars; three with a triangle; any number, every star lying, by the program's own area test, in some triangle and only in triangles it is a corner of) the position reported consists of two finite doubles and is that star moved by the sidereal time elapsed: within 4e + 2^-32 per component of the unit vector and, up to declination 85, within 3/2 e + 1e-8 degrees in declination and in right ascension times the cosine of the declination, e the error of C161/C162.", "quantifier": "every history of the device from power-on whose synchronised orientations since the last reset are two, three with a triangle, or any number, each at a corner of every triangle it is found in, all later places and times, every mathematics library of C99 Annex F accurate to 2^-50", "why_tests_cant": "unbounded histories, all doubles including signed zeros", "anchors": ["esp32-telescope-sync/src/main.cpp:loop:464-596", "esp32-telescope-sync/lib/telescope/src/telescope.cpp:addReferencePoint:29-36", "esp32-telescope-sync/lib/telescope/src/telescope.cpp:getCalibratedOrientation:38-48", "esp32-telescope-sync/lib/alignment/src/alignment.cpp:updateTransformationMatrices:410-470"]}
{"id": "C164", "title": "The message to Stellarium carries the star after two, three or more stars", "statement": "A position message sent in any pass with the tube on one of the synchronised stars (two, three, or more as in C163) is the 24-byte message carrying that star, moved by the sidereal time elapsed, within 3/2 e + 2e-7 degrees of declination and of right ascension times the cosine of declination (e the error of C161/C162), computed with actual doubles.", "quantifier": "every history with two synchronised orientations, three with a triangle, or any number, each at a corner of every triangle it is found in, every pass that sends a position, all finite doubles of ordinary size; declinations 0.01 to 85, right ascensions at least 0.05 degrees from 0", "why_tests_cant": "unbounded histories, all doubles including signed zeros", "anchors": ["esp32-telescope-sync/src/main.cpp:loop:555-596", "esp32-telescope-sync/lib/telescope/src/telescope.cpp:packPosition:180-230", "esp32-telescope-sync/lib/alignment/src/alignment.cpp:getCalibratedOrientation:516-524"]}
{"id": "C165", "title": "The NexStar position reply carries the star after two, three or more stars", "statement": "A position request over Bluetooth with the tube on one of the synchronised stars (two, three, or more as in C163) is answered with 18 bytes whose two hexadecimal words are that star, moved by the sidereal time elapsed, within 3/2 e + 2e-7 degrees of declination and of right ascension times the cosine of declination, computed with actual doubles; negative declinations where the conversion to uint32_t wraps.", "quantifier": "every history with two synchronised orientations, three with a triangle, or any number, each at a corner of every triangle it is found in, all finite doubles of ordinary size, declinations up to 85", "why_tests_cant": "unbounded histories, all doubles including signed zeros", "anchors": ["esp32-telescope-sync/lib/nexstar/src/nexstar.cpp:handleRequest:48-66", "esp32-telescope-sync/src/main.cpp:onBluetoothData", "esp32-telescope-sync/lib/alignment/src/alignment.cpp:getCalibratedOrientation:516-524"]}
{"id": "C166", "title": "After one star, every star is told to both clients", "statement": "Where the out-of-range conversion to uint32_t wraps (as the ESP32 toolchain's two-step conversion does), with the tube on the one synchronised star both the position message sent in the next pass and the answer to a NexStar position request carry that star, moved by the sidereal time elapsed: the words read back as a direction within 2^-27 of it, and up to declination 85 within 2e-7 degrees of declination and 16e-7 of right ascension modulo 360. Both hemispheres, right ascensions next to 0 and unreduced ones included.", "quantifier": "every history from power-on with one synchronised orientation, every right ascension up to 1000 degrees and every declination, all finite doubles, every mathematics library of C99 Annex F accurate to 2^-50", "why_tests_cant": "unbounded histories, all doubles, wrap-around at 0 and south", "anchors": ["esp32-telescope-sync/src/main.cpp:loop:555-596", "esp32-telescope-sync/lib/telescope/src/telescope.cpp:packPosition:180-230", "esp32-telescope-sync/lib/nexstar/src/nexstar.cpp:handleRequest:48-66"]}
{"id": "C167", "title": "After two, three or more stars, every star is told to both clients", "statement": "As C166 with two synchronised orientations, three with a triangle, or any number as in C163: direction within 4e + 2^-27, and up to declination 85 within 3/2 e + 1e-7 degrees of declination and of right ascension (modulo 360) times the cosine of declination, e the error of C161/C162.", "quantifier": "every history with two synchronised orientations, three with a triangle, or any number, each at a corner of every triangle it is found in, all finite doubles", "why_tests_cant": "unbounded histories, all doubles, wrap-around at 0 and south", "anchors": ["esp32-telescope-sync/src/main.cpp:loop:555-596", "esp32-telescope-sync/lib/telescope/src/telescope.cpp:packPosition:180-230", "esp32-telescope-sync/lib/nexstar/src/nexstar.cpp:handleRequest:48-66", "esp32-telescope-sync/lib/alignment/src/alignment.cpp:updateTransformationMatrices:410-470"]}
{"id": "C168", "title": "The star named in a sync is the star answered", "statement": "When no star has been synchronised since the last reset, a NexStar sync request over Bluetooth naming any two 32-bit words is acknowledged with '#', and the next position request is answered with two words that read back as the star named, within the bounds of C166: the whole path from hexadecimal digits over the alignment and back, computed with actual doubles.", "quantifier": "every history without a star since the last reset, every tube orientation up to 1000 degrees, all 2^64 pairs of words, upper or lower case, every separator byte and trailing bytes", "why_tests_cant": "2^64 word pairs, unbounded histories, all finite doubles", "anchors": ["esp32-telescope-sync/lib/nexstar/src/nexstar.cpp:handleRequest:48-120", "esp32-telescope-sync/src/main.cpp:onBluetoothData", "esp32-telescope-sync/lib/telescope/src/telescope.cpp:addReferencePoint:29-36", "esp32-telescope-sync/lib/telescope/src/telescope.cpp:getCalibratedOrientation:38-48"]}
{"id": "C169", "title": "The NexStar client over TCP is told the star", "statement": "A position request read from the TCP client, in the pass that finds the tube back where the only star, one of two, one of three with a triangle, or one of any number as in C163 was synchronised, is answered in that pass with exactly one reply of 18 bytes whose words carry that star, moved by the sidereal time elapsed, within the bounds of C166/C167, computed with actual doubles; the conversion to uint32_t wraps.", "quantifier": "every history from power-on, every pass that reads a request starting with 'e', all finite doubles, both hemispheres, right ascensions next to 0", "why_tests_cant": "unbounded histories, all doubles, the pass first takes a new orientation", "anchors": ["esp32-telescope-sync/src/main.cpp:loop:464-552", "esp32-telescope-sync/lib/nexstar/src/nexstar.cpp:handleRequest:48-66", "esp32-telescope-sync/lib/alignment/src/alignment.cpp:getCalibratedOrientation:516-524"]}
{"id": "C170", "title": "Node server and firmware agree on actual doubles", "statement": "For every direction, latitude and sidereal time (finite doubles) the Node server stores two finite doubles; the star at that right ascension and declination is seen in that direction within 2^-34, and it is the firmware's star within 2^-31 (up to declination 85: 1.2e-7 degrees in declination, 3e-6 in right ascension), whatever the two mathematics libraries; for a sidereal time of a day the right ascension is from 0 to 41 hours.", "quantifier": "every azimuth, altitude, latitude, sidereal time up to 4000 degrees, every pair of libraries of C99 Annex F accurate to 2^-50", "why_tests_cant": "2^64 values per argument; signed zeros, overflow, NaN; two programs on two machines", "anchors": ["node-server/src/server.ts:fromHorizontalPosition:101-139", "esp32-telescope-sync/lib/telescope/src/telescope.cpp:horizontalToEquatorial:73-94"]}
{"id": "C171", "title": "What the Node server sends on actual doubles", "statement": "On actual doubles a position with a right ascension below 24 h (less 1e-8) and a declination up to 91 degrees is sent, in two words within 9e-8 degrees of it, and one of 24 h or more is refused (RangeError); on every connection, whatever messages came before, each goto (extreme words aside) is answered with its own words, at most one unit off, without an exception, and every other message with its NexStar reply.", "quantifier": "every finite double position, every list of messages of a connection, every library of C99 Annex F accurate to 2^-50", "why_tests_cant": "histories of any length, all doubles", "anchors": ["node-server/src/server.ts:packCurrentPosition:31-45", "node-server/src/server.ts:onConnect:220-263", "node-server/src/server.ts:calibrate"]}
{"id": "C172", "title": "A further star named in a sync is the star answered", "statement": "With stars already synchronised, a NexStar sync request over Bluetooth naming any two 32-bit words, at an orientation that is not one of theirs, is acknowledged with '#' and the next position request is answered with two words that read back as the star named, within the bounds of C167, whenever the stars (two, three, or any number) resolve the sky as in C163. For the second star, at least a degree from the first, the request is always handled.", "quantifier": "every history of the device, every number of stars, all 2^64 pairs of words, upper or lower case, every separator byte and trailing bytes", "why_tests_cant": "2^64 word pairs, unbounded histories, all finite doubles", "anchors": ["esp32-telescope-sync/lib/nexstar/src/nexstar.cpp:handleRequest:48-120", "esp32-telescope-sync/src/main.cpp:onBluetoothData", "esp32-telescope-sync/lib/telescope/src/telescope.cpp:addReferencePoint:29-36", "esp32-telescope-sync/lib/telescope/src/telescope.cpp:getCalibratedOrientation:38-48"]}
{"id": "C173", "title": "The star a Stellarium client names is the star it is told", "statement": "A goto message naming any two 32-bit words, read from the TCP client, makes the position messages that follow (tube still or back there, nobody naming another star in between) carry that star, moved by the sidereal time elapsed: with no star before within the bounds of C166, with other stars before (two, three, or any number that resolve the sky) within those of C167; southern declinations, which arrive as angles above 180 degrees, included.", "quantifier": "every history of the device before the goto, every calm history after it, all 2^64 pairs of words, every time field", "why_tests_cant": "2^64 word pairs, unbounded histories, all finite doubles", "anchors": ["esp32-telescope-sync/src/main.cpp:loop:545-704", "esp32-telescope-sync/lib/telescope/src/telescope.cpp:unpackPosition", "esp32-telescope-sync/lib/telescope/src/telescope.cpp:addReferencePoint:29-36", "esp32-telescope-sync/lib/telescope/src/telescope.cpp:getCalibratedOrientation:38-48"]}
