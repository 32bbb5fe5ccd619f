{"id": "C01", "title": "Sub-views are exact slices and never leave their parent", "statement": "For any MemoryView over n elements, subspan(offset,count), subspan(offset), first(count) and last(count) never fail, denote exactly the elements at positions [offset, min(n, offset+count)), [offset,n), [0,min(n,count)) and [max(0,n-count), n) of the parent in order, and the address range they cover lies inside the parent's address range (an empty result may have a null pointer).", "quantifier": "every width of size_t, every element size, every view length, every offset and count including npos and values past the end", "why_tests_cant": "Out-of-range offset/count combinations are unbounded; tests sample four of them.", "anchors": ["MemoryView.h: MemoryView::subspan, first, last, size, operator[], data"]}
{"id": "C02", "title": "Byte views, iterators and element access agree with the view", "statement": "A view made of an array, of a pointer and a size, or of two pointers has exactly the elements of the array. size_bytes/as_bytes/as_writable_bytes cover exactly size()*sizeof(T) bytes starting at data(); a write through as_writable_bytes at byte k changes exactly byte k mod sizeof(T) of element k/sizeof(T); front/back/[]/begin..end/rbegin..rend enumerate the same elements; end() lies size() elements after begin() and the bytes between them are those of the elements, and a string_view has the same start and size; sub-viewing composes (subspan(a).subspan(b) = subspan(a+b), first(n) then last(n) splits the view).", "quantifier": "every width of size_t, every view, element size, index and offset", "why_tests_cant": "Holds for all sizes and offsets, not for the fixed 5-element array used in tests.", "anchors": ["MemoryView.h: as_bytes, as_writable_bytes, size_bytes, front, back, rbegin, rend, MemoryView(T*,T*)", "MemoryView.h: constructors from arrays, (T*, size)"]}
{"id": "C03", "title": "changeEndianess reverses the bytes of a 16- or 32-bit word and is an involution", "statement": "For every 16-bit (32-bit) value the result's byte sequence is the reverse of the input's, the result is again a 16-bit (32-bit) value, and applying the function twice gives the input back.", "quantifier": "all 2^16 and all 2^32 inputs", "why_tests_cant": "2^32 inputs; tests check two.", "anchors": ["EndianConversion.h: changeEndianess(uint16_t), changeEndianess(uint32_t)"]}
{"id": "C04", "title": "changeEndianess16x2 swaps the bytes inside each half-word in place; changeEndianessToFloat has the byte-reversed bit pattern", "statement": "For every 32-bit value, changeEndianess16x2 keeps the two 16-bit halves in place and swaps the two bytes of each, it is an involution, and changeEndianessToFloat returns the IEEE single whose bit pattern is the byte-reversed input (so converting a float's pattern to the other byte order and back is exact for every non-NaN float).", "quantifier": "all 2^32 inputs", "why_tests_cant": "2^32 inputs; tests check two.", "anchors": ["EndianConversion.h: changeEndianess16x2, changeEndianessToFloat"]}
{"id": "C05", "title": "PersistentStorage behaves like a finite map keyed by (name, object size)", "statement": "Starting from a freshly initialised storage, any sequence of set, get and reopen calls with names of at most four bytes and objects of at most 65529 bytes gives exactly the answers of a reference map: get returns the bytes of the last successful set with the same (zero-padded) name and the same object size, and nothing otherwise; no call reads or writes outside the buffer, and every call terminates.", "quantifier": "every buffer size below 2^32, every finite history of set/get/reopen calls, all names of at most 4 bytes and all object contents", "why_tests_cant": "Unbounded histories and contents; layouts of records depend on the whole history.", "anchors": ["PersistentStorage.h: PersistentStorage::set, get, getIdx", "PersistentStorage.cpp: PersistentStorage::PersistentStorage"]}
{"id": "C06", "title": "set fails exactly when a new record does not fit, and a failed set changes nothing", "statement": "set returns false iff no record with that (name,size) exists and used space + 6 + object size exceeds the buffer size, where used space is the sum of 6 + size over the distinct (name,size) pairs stored; a false result leaves the whole buffer and all later answers unchanged; overwriting never consumes space.", "quantifier": "every reachable storage state, name and object", "why_tests_cant": "The boundary depends on the whole history.", "anchors": ["PersistentStorage.h: PersistentStorage::set"]}
{"id": "C07", "title": "Reopening a storage region without initialisation recovers exactly the stored objects", "statement": "After any history of set/get/reopen calls on a region initialised once, constructing a PersistentStorage with init=false on the same bytes yields a storage whose answers to every later call are those of the original, and it does not modify the region.", "quantifier": "every history, every buffer size, every point of the history at which the region is reopened", "why_tests_cant": "Needs all histories and all fill levels (including a completely full region).", "anchors": ["PersistentStorage.cpp: PersistentStorage::PersistentStorage", "PersistentStorage.h: getIdx"]}
{"id": "C08", "title": "Opening arbitrary (corrupt) bytes is safe unless the record chain ends in a one-byte record", "statement": "For ANY buffer content, PersistentStorage(buffer,false) terminates without touching memory outside the buffer and without changing it, and every sequence of get calls afterwards terminates and stays inside. If the chain of size fields it accepted does not end in a record whose size field is 1, every sequence of get and set calls (records up to 65535 bytes) also terminates and stays inside the buffer. The exclusion is necessary: with such a chain end (e.g. first byte 1, rest zero) one successful set makes a later get loop forever, and another makes get read and set write outside the buffer. The condition is exact for objects of at least one byte (as C++ objects have): every sequence of get and set calls goes well if and only if it is not the case that the accepted chain ends in a record with size field 1 and at least 7 bytes are free after it, i.e. room for one more record with a one-byte object; in that case some successful set followed by some get reads outside the buffer or never returns.", "quantifier": "all byte contents of all buffers below 2^32 bytes, all call sequences", "why_tests_cant": "2^(8n) buffer contents; a fuzzer only samples.", "anchors": ["PersistentStorage.cpp: PersistentStorage::PersistentStorage", "PersistentStorage.h: set, get, getIdx"]}
{"id": "C09", "title": "A crash inside set never damages other stored objects", "statement": "If power is lost at any point inside set(k,v), k a name of any length, and the region is reopened with init=false, every object stored under another (name,size) that was readable before is read back unchanged - whatever subset of the bytes being written reached memory; if k has more than four bytes (set then never overwrites), every object is. If stores happen in program order with the 16-bit size field written atomically, then in every history of calls and crashes absent names other than k stay absent, and k itself is either as before (absent, or bytewise a mix of old and new value when it was being overwritten) or present with the right size and bytewise a mix of new value and zeroes (for a k of more than four bytes: under its first four bytes, unless an entry of that name and size hides it); the reopened storage is fully usable.", "quantifier": "every reachable state, every name and object, every crash point and every subset of pending byte stores, all histories of calls and crashes, names of any length", "why_tests_cant": "All crash points of all histories.", "anchors": ["PersistentStorage.h: PersistentStorage::set (store order)", "PersistentStorage.cpp: PersistentStorage::PersistentStorage"]}
{"id": "C10", "title": "A name can be read back iff it has at most four bytes", "statement": "For a set that returns true, an immediately following get with the same name and type returns the stored value iff the name has at most four bytes; for longer names get always returns nothing, every repeated set of such a name consumes a fresh record although it reports success, and the object becomes readable under the name's first four bytes if that name was absent. Every history of set, get and reopen calls with names of any length is answered exactly as by this map: a set of a longer name takes 6 + size bytes each time, fails exactly if they are not free, and otherwise adds an entry under the first four bytes, hidden if there is one of that size already; a set of a short name changes the visible entry.", "quantifier": "every reachable state, every name of any length, every object, every history", "why_tests_cant": "All name lengths and all states.", "anchors": ["PersistentStorage.h: operator==(std::array<char,N>, std::string_view), set, get"]}
{"id": "C11", "title": "Records of 65536 bytes or more break the storage", "statement": "The size field is 16 bits: a set of an object of n bytes stores (n+6) mod 65536. For n+6 a multiple of 65536 stored as the first record, the set reports success but the next lookup never terminates; for other n+6 > 65535 the stored object is never found again.", "quantifier": "every object size n >= 65530 that fits the buffer", "why_tests_cant": "Infinite family of sizes; non-termination cannot be observed by a test.", "anchors": ["PersistentStorage.h: NodeDescriptor::size, set, getIdx"]}
{"id": "C12", "title": "BufferedOut appends text, clipped to the buffer, and never disturbs what is already there", "statement": "For any sequence of string, C-string, char, byte-span and (width-less) integer insertions the visible text is the concatenation of each item's clipped text: strings and C-strings are cut to the remaining space, a char is dropped when full, an integer is written completely or not at all, a byte span writes as many whole two-digit bytes as fit; size() never exceeds capacity(), bytes before the old position are never changed, and nothing outside the buffer is written.", "quantifier": "every capacity, every sequence of insertions, all contents", "why_tests_cant": "Unbounded sequences; clipping depends on the exact fill level.", "anchors": ["BufferedOut.cpp: operator<<(const char*), operator<<(std::string_view), operator<<(int..unsigned long long), operator<<(ConstBytesView)", "BufferedOut.h: addChar, size, capacity, asStringView"]}
{"id": "C13", "title": "Exactly two insertions can write outside the buffer", "statement": "Starting from any state with position inside the buffer, an insertion performs an out-of-bounds access iff it is a single unsigned char with fewer than two free bytes, or an integer (that itself fits) under a pending width larger than the free space; every other insertion with well-formed arguments stays inside.", "quantifier": "all states, all insertions", "why_tests_cant": "The claim is an equivalence over all states and arguments.", "anchors": ["BufferedOut.cpp: operator<<(unsigned char), addPadding, adjustPos"]}
{"id": "C14", "title": "Integer width: right-aligned padding, but digits beyond the width are lost", "statement": "With pending width w>0 that fits the free space, inserting an integer whose decimal text has k characters appends exactly w characters: w-k fill characters followed by the text when k<=w, and only the first w characters of the text when k>w; the width is consumed.", "quantifier": "all widths, fill characters, integers, buffer states", "why_tests_cant": "All combinations of width, digits and fill level.", "anchors": ["BufferedOut.cpp: addPadding, adjustPos"]}
{"id": "C15", "title": "Integers are printed in canonical decimal", "statement": "The text inserted for an integer n of any supported type parses back to n, has no leading zero (except for 0 itself), carries a '-' exactly when n<0, and has the length the type's bounds promise (at most 20 characters).", "quantifier": "all values of int, unsigned, long, unsigned long, long long, unsigned long long", "why_tests_cant": "2^64 values.", "anchors": ["BufferedOut.cpp: operator<<(int), operator<<(unsigned int), operator<<(long), operator<<(unsigned long), operator<<(long long), operator<<(unsigned long long)"]}
{"id": "C16", "title": "Float formatting: truncated integer part, digits within 2^-24, sign lost between -1 and 0, stale bytes when it does not fit", "statement": "For every finite float v that int can hold and any precision: if the decimal text of trunc(v) fits the free space, inserting v appends that text followed (precision>0 and room permitting) by '.' and min(precision as unsigned, room) characters that are all decimal digits; the fraction 0.d1..dk written differs from |v|-|trunc v| by less than 10^-k + 2^-24, and for |v|>=8 it is exactly the fraction truncated to k decimals; the output never exceeds the buffer; for -1<v<0 no minus sign is written. If the integer part does not fit, the text grows to the full capacity with whatever bytes std::to_chars left there (so the insertion is not all-or-nothing).", "quantifier": "all finite floats in int range, all precisions, all buffer fill levels", "why_tests_cant": "2^32 floats times all precisions; rounding of f*10 could yield 10.", "anchors": ["BufferedOut.cpp: toChars(float), operator<<(float)"]}
{"id": "C17", "title": "Formatting state: width is one-shot, precision and fill persist until clear", "statement": "precision/fill/width insertions change no text; a pending width survives string, char, byte and float insertions and a failed integer insertion and is consumed by the next integer that is written; precision and fill stay as set until clear(), which empties the text and restores the defaults.", "quantifier": "all insertion sequences", "why_tests_cant": "Histories are unbounded.", "anchors": ["BufferedOut.h: operator<<(precision), operator<<(width), operator<<(fill), clear", "BufferedOut.cpp: adjustPos"]}
{"id": "C18", "title": "data() agrees with the text iff the text is shorter than 65536 bytes", "statement": "data() returns a view of the first size() mod 65536 bytes of the buffer, so it equals asStringView() exactly when size() < 65536.", "quantifier": "all states", "why_tests_cant": "Needs buffers of 64 KiB and above at every fill level.", "anchors": ["BufferedOut.h: data, asStringView"]}
{"id": "C19", "title": "SerialOut delivers each line exactly once, in order, and starts the next one clean", "statement": "For any sequence of insertions closed by endl, with buffer capacity between 1 and 65535, the bytes handed to the UART are exactly the text BufferedOut would hold for these insertions followed by one newline (sent separately when the text fills the buffer completely); after end/endl the buffer is empty and formatting state is back to its defaults, so lines never leak into each other.", "quantifier": "all insertion sequences, all capacities from 1 to 65535", "why_tests_cant": "Depends on exact fill levels and unbounded logging histories.", "anchors": ["SerialOut.h: operator<<(end), operator<<(endl)", "arduino/SerialOut.cpp: flush", "esp32-esp-idf/SerialOut.cpp: flush"]}
{"id": "C20", "title": "Rectangle corners, translation and point/size arithmetic", "statement": "For a rectangle with positive size the four corner functions return the extreme pixels of the set {topLeft + (i,j) | 0<=i<w, 0<=j<h}. bottomRight is defined exactly if its coordinates are ints; bottomLeft and topRight only if also the coordinate one further is an int, so a rectangle that ends at INT_MAX has no bottomLeft (refuted). Translating a rectangle, defined exactly if the moved corner has int coordinates, keeps its size and translates this set; (p+s)+t = p+(s+t), s-s = 0, and compound assignment agrees with the pure operators, whenever no int overflow occurs.", "quantifier": "all int coordinates without overflow", "why_tests_cant": "All coordinate combinations.", "anchors": ["graphics/BaseGeometry.h: Size, Point, Rect, Matrix2x2"]}
{"id": "C21", "title": "Rotation maps the logical canvas one-to-one onto the frame buffer", "statement": "For each rotation, logical coordinates inside getSize() map bijectively onto frame-buffer coordinates and coordinates outside map outside; the transform is defined exactly if the image has int coordinates, in particular for every point of the canvas; the matrix-and-shift form used for glyphs computes the same point; the rectangle transform is defined exactly if the sums it computes are ints (in particular for every rectangle on the canvas), and then maps a rectangle's pixels onto the transformed rectangle's pixels, exchanging width and height for the two quarter turns.", "quantifier": "all four rotations, all canvas sizes, all int points (the matrix form: above INT_MIN), all int rectangles", "why_tests_cant": "All coordinates and sizes.", "anchors": ["graphics/Canvas.cpp: transformCoords(Point), transformCoords(Rect), getTransformMatrix, getShifts", "graphics/Canvas.h: getSize, setRotation"]}
{"id": "C22", "title": "drawPixel changes exactly one pixel (depths 1, 4, 8, 16, 24)", "statement": "For every buffer geometry of colour depth 1, 4, 8, 16 or 24 and every pixel inside getWidth() x getHeight(), drawPixel writes exactly the pixel's bits (big-endian, colour modulo 2^depth; any non-zero colour means 1 at depth 1), leaves every other bit of the image unchanged and never touches memory outside the image. For coordinates outside it does not clip: whatever x and y are, it draws the pixel number y*getWidth()+x (rows joined), so a column too far right lands in a later row; because the division by 8 rounds towards zero, the pixels of the byte before the image land in its first byte at depths 1 and 4; the behaviour is undefined exactly when y*getWidth() overflows, when no pixel of the image is reached, or when x is negative and not at the beginning of a byte (depths 1 and 4).", "quantifier": "all geometries, coordinates, colours and image contents", "why_tests_cant": "All pixels of all images and all coordinates outside; undefined behaviour is not observable.", "anchors": ["graphics/SimpleFrameBuffer.h: drawPixel(int,int,uint32_t), drawPixel(int,int), getImage"]}
{"id": "C23", "title": "clear paints every pixel and setColor selects the masked colour", "statement": "clear(c) sets every pixel of the image to c (as drawPixel would) whatever the previous content, so the whole image is determined by c alone; setColor(c) makes later two-argument drawPixel calls use c modulo 2^depth and changes no pixel; at depth 1, clear(c) with an even non-zero c paints ones while setColor(c) selects zero.", "quantifier": "all geometries, colours, image contents", "why_tests_cant": "All image contents, including the uninitialised initial one.", "anchors": ["graphics/SimpleFrameBuffer.h: clear, setColor, constructor"]}
{"id": "C24", "title": "Depth 2 draws correctly in no column", "statement": "At colour depth 2, drawPixel with a non-zero colour never produces the intended image: for x mod 4 = 0 the colour bits land in pixel x+2, for x mod 4 = 1 in pixel x+2, and for x mod 4 >= 2 the shift count is negative (undefined behaviour); depth 32 has undefined behaviour in its constructor.", "quantifier": "all geometries of depth 2, all pixels and colours", "why_tests_cant": "Universal statement over all pixels; undefined behaviour is not observable.", "anchors": ["graphics/SimpleFrameBuffer.h: drawPixel (colorDepth == 2), constructor"]}
{"id": "C25", "title": "Frame-buffer geometry", "statement": "getWidth() is floor(width*depth/8)*8, which equals the requested width iff depth is 1 and width is a multiple of 8 (or width is 0); the image always has exactly getWidth()*getHeight()*depth/8 bytes; every (x,y) inside maps to bits inside the image and distinct pixels to disjoint bits. A frame buffer can be compiled exactly when its depth is one of 1, 2, 4, 8, 16, 24, 32, the width is a multiple of 8 (depth 1) or 4 (depth 2), floor(width*depth/8)*8*height*depth is at most INT_MAX and the width is at most 2147483640, 1073741820, 268435455, 16777215, 65535, 255 or 1 for these depths: the alignment assertion itself overflows for wider ones, so that a 24-bit frame buffer is at most 255 pixels wide.", "quantifier": "all widths, heights and depths", "why_tests_cant": "All geometries.", "anchors": ["graphics/SimpleFrameBuffer.h: effectiveWidth, bufferSize, getWidth, getHeight"]}
{"id": "C26", "title": "Canvas drawing never leaves the frame buffer", "statement": "Whatever coordinates are passed (within a range that excludes int overflow) to drawPixel, drawLine, drawRectangle, drawFilledRectangle or drawCircle, under any rotation, at any colour depth except 2, every frame-buffer access is inside the image: the operation completes without undefined behaviour, the image keeps its size, and pixels outside the shape keep their value. (drawCharAt: see C34.)", "quantifier": "all shapes, coordinates in +-2^28, rotations, canvas sizes", "why_tests_cant": "All coordinates including far off-screen ones.", "anchors": ["graphics/Canvas.h: setIfVisible, drawPixel", "graphics/Canvas.cpp: drawLine, drawRectangle, drawFilledRectangle, drawCircle, drawHorizontalLine, drawVerticalLine"]}
{"id": "C27", "title": "drawLine draws a connected digital line within half a pixel, including both endpoints", "statement": "drawLine(a,b) terminates and (before clipping) plots exactly one pixel per step of the longer axis from the one endpoint to the other; each is within half a pixel of the ideal segment in the shorter axis; consecutive pixels are 8-neighbours; both endpoints are plotted; horizontal and vertical lines are the exact integer segments. Which pixels these are is fixed: in frame-buffer coordinates, between the two nearest pixels of a column (of a row for lines higher than wide) the nearer one, and at equal distance the one nearer to the row (column) of the left (upper) end.", "quantifier": "all endpoint pairs, all rotations; coordinates, sizes and canvas sides within +-2^28 (so that no int overflow is possible)", "why_tests_cant": "All slopes and lengths.", "anchors": ["graphics/Canvas.cpp: Canvas::drawLine"]}
{"id": "C28", "title": "drawLine is independent of the endpoint order", "statement": "drawLine(a,b) and drawLine(b,a) draw the same pixels in the same order, for every rotation.", "quantifier": "all endpoint pairs, canvases and rotations", "why_tests_cant": "All pairs.", "anchors": ["graphics/Canvas.cpp: Canvas::drawLine"]}
{"id": "C29", "title": "drawRectangle draws exactly the border", "statement": "For a rectangle of positive size, drawRectangle sets exactly the visible border pixels of the logical rectangle under the current rotation; for width 0 (height 0) and positive other side it still paints the visible pixels of two adjacent columns (rows) instead of nothing.", "quantifier": "all rectangles, rotations and canvas sizes; coordinates, sizes and canvas sides within +-2^28 (so that no int overflow is possible)", "why_tests_cant": "All positions/sizes/rotations including clipped ones.", "anchors": ["graphics/Canvas.cpp: Canvas::drawRectangle"]}
{"id": "C30", "title": "drawFilledRectangle paints exactly the visible part of the rectangle, each pixel once", "statement": "drawFilledRectangle sets exactly the pixels of the logical rectangle that are visible, each exactly once; a rectangle with non-positive width or height paints nothing.", "quantifier": "all rectangles (any sign of size), rotations, canvas sizes; coordinates, sizes and canvas sides within +-2^28 (so that no int overflow is possible)", "why_tests_cant": "All clipping situations.", "anchors": ["graphics/Canvas.cpp: Canvas::drawFilledRectangle"]}
{"id": "C31", "title": "drawCircle draws exactly the ring of pixels closest to the ideal circle", "statement": "For radius r>=1, drawCircle(c,r) terminates and sets exactly the visible pixels c+(a,b) with -M <= a^2+b^2-r^2 < M where M = max(|a|,|b|), except that the diagonal pixel with a^2+b^2-r^2 = M-1 is skipped; off the diagonals these are exactly the pixels less than half a pixel from the ideal circle along the longer axis; the shape is 8-fold symmetric, contains the four cardinal points, and is the same under every rotation. Radius 0 paints the centre, a negative radius two pixels in the centre's frame-buffer row.", "quantifier": "all radii, centres and rotations; coordinates, sizes and canvas sides within +-2^28 (so that no int overflow is possible)", "why_tests_cant": "All radii; termination.", "anchors": ["graphics/Canvas.cpp: Canvas::drawCircle"]}
{"id": "C32", "title": "A filled circle is the outline with every row filled, without holes", "statement": "drawCircle(c,r,true) sets exactly the visible pixels c+(a,b) such that some outline pixel (a',b) has |a|<=|a'|; every row between -r and r is non-empty and contiguous.", "quantifier": "all radii, centres and rotations; coordinates, sizes and canvas sides within +-2^28 (so that no int overflow is possible)", "why_tests_cant": "All radii.", "anchors": ["graphics/Canvas.cpp: Canvas::drawCircle (filled)"]}
{"id": "C33", "title": "Shapes rotate with the canvas", "statement": "For pixels, rectangles, filled rectangles, circles (radius >= 0), glyphs and those lines none of whose intermediate ideal points lies half way between two pixels, the set of frame-buffer pixels drawn under rotation R is the image, under the logical-to-physical map of R, of one rotation-independent logical set. For lines with both ends on a picture the condition is exact: every line with an intermediate half-way point is drawn differently when the canvas is turned (the ties are broken in frame-buffer coordinates). Circles of negative radius need not turn with the canvas either.", "quantifier": "all shapes, rotations and canvas sizes; shapes within +-2^28 and glyphs within +-1000000000 are always defined, beyond that the claim holds whenever a call is defined (C83, C84)", "why_tests_cant": "All shapes and all rotations.", "anchors": ["graphics/Canvas.cpp: drawRectangle, drawFilledRectangle, drawCircle, drawCharAt, drawLine"]}
{"id": "C34", "title": "drawCharAt paints exactly the set bits of the glyph bitmap", "statement": "For a symbol whose glyph data lies inside the font bitmap, drawCharAt paints exactly the visible pixels pos+offset+(i,j) whose bit i+j*w (MSB first) is set, returns the glyph's advance, and its result depends on no bitmap byte other than the ceil(w*h/8) of that glyph; for a symbol whose glyph data does not lie inside the bitmap it reads out of bounds.", "quantifier": "all fonts, symbols, rotations and positions within 1000000000 pixels of the origin, on canvases of up to 1000000000 x 1000000000 pixels (C84: beyond that, exactly when)", "why_tests_cant": "All glyph shapes and bit alignments.", "anchors": ["graphics/Canvas.cpp: Canvas::drawCharAt"]}
{"id": "C35", "title": "drawStringAt places each glyph after the advances of the previous ones", "statement": "drawStringAt draws character number i of the text exactly as drawCharAt at topLeft.x plus the sum of the advances of the characters before it, on an unchanged baseline; drawing a concatenation equals drawing the parts one after the other.", "quantifier": "all strings, fonts, rotations and positions within 1000000000 pixels of the origin, on canvases of up to 1000000000 x 1000000000 pixels (C84: beyond that, exactly when)", "why_tests_cant": "All strings.", "anchors": ["graphics/Canvas.h: drawStringAt"]}
{"id": "C36", "title": "Glyph lookup", "statement": "getBitmap looks a code up as follows. A code that a char represents by its own value (every code where char is unsigned, codes below 0x80 where it is signed), lies in [first,last] and has a table entry uses entry c-first, or c-first-33 above 0x7E; for the converter's layout (codes 0x7F..0x9F omitted, first at most 0x7F) that is the glyph the converter stored for c, while a code inside the omitted gap gets the glyph of code c-33. Every other code uses the entry of the first code; the first code has one iff it is at most 0x7E, first<=last and the table is not empty. If neither the code nor the first code has an entry, the lookup recurses forever.", "quantifier": "all fonts, all 256 codes, both signednesses of char", "why_tests_cant": "All fonts; infinite recursion is not testable.", "anchors": ["graphics/EmbeddedFont.cpp: EmbeddedFont::getBitmap"]}
{"id": "C37", "title": "The glyph bitmap view: last glyph reads past the glyph table", "statement": "getBitmap of a symbol that maps to the last entry of the glyph table always reads one descriptor past the table's end; for every other entry whose offset is inside the bitmap it stays inside and the returned view starts at the glyph's offset and extends to the end of the whole font bitmap (size mod 65536); an entry whose offset is beyond the bitmap is undefined behaviour.", "quantifier": "all fonts and symbols", "why_tests_cant": "Out-of-bounds reads are not observable by value tests.", "anchors": ["graphics/EmbeddedFont.cpp: EmbeddedFont::getBitmap"]}
{"id": "C38", "title": "Text bounds", "statement": "getTextBounds of a text whose width is an int (for any other it is undefined, C84) returns topLeft = (-offset.x of the first glyph, -top) and height = bottom-top with top the smallest glyph offset (at most 0) and bottom the lowest glyph edge. A text drawn at that topLeft has all its pixels in rows 0..height-1, and a one-character text also in columns 0..width-1. For longer texts the width is w(first)+advances(middle)+w(last); the last glyph's box ends at width + (advance(first)+offset(last)-offset(first)-w(first)), so the rectangle does not hold the text in general (refuted for \"ii\" in the shipped font). For the empty text it is the empty rectangle at the origin.", "quantifier": "all fonts and strings", "why_tests_cant": "All strings.", "anchors": ["graphics/EmbeddedFont.cpp: EmbeddedFont::getTextBounds"]}
{"id": "C39", "title": "The shipped font is well-formed", "statement": "In FreeSans15pt7b every glyph's bitmap bytes lie inside the bitmap table, glyph data are contiguous and gap-free in table order, and consequently every character except '~' can be drawn at any in-range position on any canvas without undefined behaviour.", "quantifier": "all 256 character codes, all rotations, all positions within 1000000000 pixels of the origin, on canvases of up to 1000000000 x 1000000000 pixels", "why_tests_cant": "All codes, positions and clipping situations.", "anchors": ["graphics/GFXFonts/FreeSans15pt7b.h", "graphics/EmbeddedFonts.cpp"]}
{"id": "C40", "title": "BitStream packs bits MSB-first", "statement": "For any sequence of bits and whole bytes written to a BitStream followed by flush, the emitted bytes are the concatenated bit sequence packed most-significant-bit first and padded with zero bits to a byte boundary; flush leaves the stream ready for the next glyph, so a sequence of flushed pieces comes out as the packed pieces one after the other.", "quantifier": "all sequences of bit/byte insertions and flushes", "why_tests_cant": "All sequences and alignments.", "anchors": ["gfx-font-converter/BitStream.h: BitStream"]}
{"id": "C41", "title": "A converted glyph is drawn as rendered", "statement": "For any bitmap of at most 255x255 pixels FreeType delivers, the converter stores its size, its offsets and its pixels row by row; and for a single-byte encoding and at most 65535 bytes of bitmap data, drawing any stored character but the last of the table with drawCharAt on the resulting font paints exactly the rendered pixels at the rendered position and returns the rendered advance. Of larger bitmaps all pixels are stored, too, but the descriptor keeps width, height and advance modulo 256, the offsets as the int8_t with the same low byte and the size modulo 65536.", "quantifier": "all renderings, both tables, all characters but the last, rotations, positions within 1000000000 pixels of the origin, on canvases of up to 1000000000 x 1000000000 pixels", "why_tests_cant": "All bitmaps.", "anchors": ["gfx-font-converter/main.cpp: main (packing loop)", "graphics/Canvas.cpp: Canvas::drawCharAt"]}
{"id": "C42", "title": "Converter table order matches glyph lookup", "statement": "The converter emits one glyph for each code first..last except 0x7F..0x9F, in increasing order, and the position of code c in that sequence is the entry getBitmap uses for c (for unsigned char, and for codes below 0x80 with signed char); the ASCII table has 95 and the 8-bit table 191 entries.", "quantifier": "all codes of both tables", "why_tests_cant": "Cross-component agreement for every code.", "anchors": ["gfx-font-converter/main.cpp: main (code loop)", "graphics/EmbeddedFont.cpp: getBitmap", "gfx-font-converter/FontConverterConfig.cpp"]}
{"id": "C43", "title": "Converter bitmap offsets are the running byte totals", "statement": "In binary output the offset of glyph i is the total size of the bitmaps before it modulo 65536; hence if all bitmaps together have at most 65536 bytes every glyph's data sits at its offset in the concatenated bitmap file, and glyph ranges are disjoint and in order. The glyph file has seven bytes per glyph from which the descriptor can be read back.", "quantifier": "all glyph tables", "why_tests_cant": "All tables; wrap-around only beyond 64 KiB.", "anchors": ["gfx-font-converter/main.cpp: main (Glyphs.bin), TextGlyphStream::operator<<"]}
{"id": "C44", "title": "The generated bitmap array text denotes exactly the bytes", "statement": "For any font name and fewer than 2^31 bytes, the text produced by HexStringStream is the first 1024 characters of the array header, the bytes as 0xHH literals separated by ', ' with a line break after every 12th, and the closing brace; the header is complete exactly for names of up to 996 characters; reading the literals back yields the byte sequence; from 2^31 bytes on the int byte counter overflows.", "quantifier": "all byte sequences of any length", "why_tests_cant": "All lengths; buffer boundary.", "anchors": ["gfx-font-converter/main.cpp: HexStringStream, BufferedStreamBase"]}
{"id": "C45", "title": "EncodingConverter never overruns its input buffer; single-byte conversions are independent", "statement": "For any behaviour of iconv and any sequence of calls, the pending-input length stays in 0..2, so the 4-byte buffer is never overrun; each call gives iconv the pending bytes and the new one; if iconv never reports a single byte as incomplete, each call converts exactly its own byte; but after a completed multi-byte sequence the pending length is not reset, so later calls are fed stale bytes.", "quantifier": "all iconv behaviours, all call sequences", "why_tests_cant": "All behaviours of an external library.", "anchors": ["gfx-font-converter/EncodingConverter.cpp: convert, convertRaw"]}
{"id": "C46", "title": "ESP32 ReceiveUntil respects the buffer and stops at the first end byte", "statement": "For any clock and any UART behaviour and 0<=bufferSize<65536, ReceiveUntil writes only inside buffer[0..bufferSize) (the rest of the memory keeps its contents), returns at most bufferSize, the returned bytes are exactly the bytes received in order, none of them except possibly the last is the end byte, and it returns only because the end byte arrived, the buffer is full, or (timeout not 0) the clock was seen at or past the deadline; it is still running after n rounds exactly if none of these happened in them, so with timeout 0 it waits for ever when no end byte comes and the buffer does not fill; every request to the driver waits for exactly the time left to the deadline (0 without timeout).", "quantifier": "all clocks, all receive behaviours, all buffer sizes and timeouts", "why_tests_cant": "All schedules of bytes and timeouts.", "anchors": ["esp32-esp-idf/PacketUart.cpp: PacketUart::ReceiveUntil"]}
{"id": "C47", "title": "ESP32 ReceiveBetween returns nothing or a packet starting with the start byte", "statement": "For any UART behaviour, bufferSize>=2 and a clock with start+timeout<2^32, ReceiveBetween returns either 0, only after bytes none of which is the start byte and then a request that yielded no byte (only buffer[0] may have changed), or a count between 1 and bufferSize such that buffer[0] is the start byte, the rest are exactly the bytes received after it in order, only the last can be the end byte, and it stopped because of the end byte, the full buffer or the deadline; bytes before the start byte are discarded. After any number n of rounds it is still running exactly if only bytes other than the start byte have arrived, or a start byte was found and since then the clock has stayed within the deadline, the buffer has not filled and no end byte has come. Each request up to and including the start byte waits for the whole timeout, each later one for the time then left until the deadline. The search for the start byte never looks at the clock: it goes on as long as other bytes arrive. With bufferSize<2 it returns 0 and does nothing. If the deadline computation wraps around 2^32 ms the search is skipped and the packet's first byte is whatever buffer[0] held, not a received byte.", "quantifier": "all clocks, all receive behaviours, all parameters", "why_tests_cant": "All schedules; wrap after 49.7 days.", "anchors": ["esp32-esp-idf/PacketUart.cpp: PacketUart::ReceiveBetween"]}
{"id": "C48", "title": "Arduino Receive/ReceiveUntil/ReceiveBetween buffer discipline", "statement": "Receive returns at most bufferSize bytes, exactly those received, in order, and stops only when full or at the deadline. ReceiveUntil with bufferSize>=1 and ReceiveBetween with bufferSize>=2 never write outside the buffer, restore the UART timeout, and return the bytes delivered (ReceiveBetween: the first start byte seen, then the bytes after it) followed by the end byte, which is appended even when it was never received (timeout or full buffer), so the last byte is not evidence of reception; ReceiveBetween returns 0 and leaves the buffer alone only if the deadline passed with no start byte seen. With bufferSize 0 (resp. <2 once the start byte is found) and no memory beyond the buffer they always write out of bounds. Send makes exactly the calls: set the timeout if it is not 0, write the bytes, flush, restore the timeout.", "quantifier": "all UART behaviours, clocks, buffer sizes", "why_tests_cant": "All schedules and sizes.", "anchors": ["arduino/PacketUart.cpp: Receive, ReceiveUntil, ReceiveBetween, Send"]}
{"id": "C49", "title": "Millisecond deadlines fail when the 32-bit tick counter wraps", "statement": "With start + timeout >= 2^32 the computed deadline lies before the start, so ESP32 ReceiveUntil, Arduino Receive and light sleep give up immediately although no time has passed; without wrap they give up only after the clock has reached start + timeout.", "quantifier": "all start times and timeouts", "why_tests_cant": "Wrap occurs only every 49.7 days.", "anchors": ["esp32-esp-idf/PacketUart.cpp: ReceiveUntil", "arduino/PacketUart.cpp: Receive", "esp32-esp-idf/SleepFunctions.h: ligntSleep"]}
{"id": "C50", "title": "Arduino SPI transfer moves exactly the requested bytes in order", "statement": "For every length, a send-only transfer puts exactly the caller's bytes on the wire in order and leaves memory alone, a receive-only transfer stores exactly length received bytes in order (clocking out the library's filler in the four-byte groups and FFh in the rest), and a full-duplex transfer does both byte for byte, also when both buffers are the same; the received bytes are the answers of the other side to the bytes sent, one by one; nothing outside [0,length) is read or written, and each transfer is bracketed by one beginTransaction/endTransaction pair.", "quantifier": "all lengths, all data, all slave responses", "why_tests_cant": "All lengths; four-byte chunk remainders.", "anchors": ["arduino/SpiBus.cpp: read, write, readAndWrite, SpiBus::transfer", "arduino/SpiDevice.cpp"]}
{"id": "C51", "title": "ESP32 SPI transfer splits into chunks without loss", "statement": "With a positive maximum chunk size, transfer(length) issues ceil(length/max) transactions, each nonempty and of at most max bytes, whose concatenation is exactly the caller's buffer range in order for both directions (also in place), with bit lengths 8*size for a direction that is present; the transmit length of an absent direction is 0, its receive length is what the driver left in the structure, which all pieces share, so 0 if the driver leaves it alone. It returns true iff every transaction succeeded and stops at the first failure, leaving everything outside the pieces handed over unchanged; with a zero chunk size (init never called) a driver that accepts empty transactions makes it run for ever, one that rejects makes it fail at once. Receive-only transfers announce a transmit length of 0, so a driver that wants the receive length within the transmit length (ESP-IDF in full duplex) rejects every one. If the driver also replaces a receive length of 0 by the transmit length (again ESP-IDF in full duplex), sending alone succeeds exactly if there is at most one piece or the last piece is as long as the others; otherwise every piece but the last is sent and false returned.", "quantifier": "all lengths, chunk sizes and driver behaviours", "why_tests_cant": "All lengths/chunk sizes and failure points.", "anchors": ["esp32-esp-idf/SpiBus.cpp: SpiBus::transfer, SpiBus::init", "esp32-esp-idf/SpiDevice.cpp"]}
{"id": "C52", "title": "ESP32 SpiBus::release does not release", "statement": "Whenever the driver removes the device successfully, release() returns false, does not free the bus and keeps the stale handle, so every further release (also the destructor's) removes the device again, and over the whole life of a bus whose driver does all it is asked the bus is never freed; only when removal fails is the bus freed and the handle cleared. init asks the driver for a bus on the given data and clock pins with the fixed largest transfer and for a device with the given clock (a frequency f from 2^31 on becomes f-2^32, which is negative, refuted) and duplex mode, and returns true exactly if both driver calls succeed; after a failed init release does nothing, although the bus may have been initialised, and the chunk size is set.", "quantifier": "all driver behaviours, all call histories", "why_tests_cant": "Needs driver misbehaviour histories.", "anchors": ["esp32-esp-idf/SpiBus.cpp: SpiBus::release, ~SpiBus"]}
{"id": "C53", "title": "ChipSelector brackets its scope", "statement": "For a block with a ChipSelector whose body does not touch the pin itself (however it uses other pins and selectors), the pin is low from its beginning to its end and high afterwards; the pin is high after any block on it until something drives it, so an inner block on the same pin ends the outer selection; set(level) drives the pin to the given level and no other pin, and with hardware that reads back the written level check() returns it.", "quantifier": "all scope structures and pin operations", "why_tests_cant": "All nestings.", "anchors": ["GpioDigitalPin.h: ChipSelector, GpioDigitalPin::set(bool)", "arduino/GpioDigitalPin.cpp", "esp32-esp-idf/GpioDigitalPin.cpp"]}
{"id": "C54", "title": "I2C transfers are all-or-nothing at the API", "statement": "sendThenReceive performs the receive phase iff the send phase succeeded and returns true iff both did; Arduino receiveSync stores exactly count bytes in order when it returns true and stores nothing when it returns false, and always fails for 256 bytes or more if requestFrom reports 8-bit counts; Arduino sendSync returns true iff all bytes were queued and the transmission was acknowledged, and always ends the transmission; on ESP32 each phase is one driver call with the timeout rounded down to ticks and the 16-bit address reduced to a byte, so addresses 256 apart are the same device.", "quantifier": "all bus behaviours, data, counts", "why_tests_cant": "All failure points.", "anchors": ["I2CDevice.h: sendThenReceive", "arduino/I2CDevice.cpp", "esp32-esp-idf/I2CDevice.cpp"]}
{"id": "C55", "title": "Analog pin mapping and reading", "statement": "digitalPinToAnalogChannel finds the first (unit, channel) wired to the pin and nothing iff none is (or the pin number is too large); singleRead returns -1 for unmapped pins, for units above the second and on every driver error, else the driver's value; no reading ever releases a unit, so with a driver that refuses a unit still in use every later read of the same unit returns -1.", "quantifier": "all channel maps, pins and driver behaviours", "why_tests_cant": "All maps and call histories.", "anchors": ["esp32-esp-idf/AnalogPin.cpp: digitalPinToAnalogChannel, singleReadADC, AnalogPin::singleRead"]}
{"id": "C56", "title": "Delays and sleeps", "statement": "delay(ms) waits floor(ms/tickPeriod) ticks, hence less than requested exactly when ms is not a multiple of the tick period, by less than one tick; deepSleep programs exactly 1000*ms microseconds for every 32-bit ms; light sleep repeats rounds (program, sleep, on failure delay) exactly while the reading at their beginning is before the deadline, so without counter wrap it returns only when the clock has reached start+ms; the wake-up interval it programs is exact iff the remaining time is between 0 and 4294967 ms, and if the clock passes the deadline by d between check and programming it is 2^32-1000*d microseconds (over an hour); delayMicroseconds returns exactly at the first reading at or after start+us; when the 64-bit counter wraps around during the wait it still never returns early, provided it is read at least once between the wrap-around and the deadline, and otherwise it spins until the next wrap-around; the ESP32 millisecond counter is the timer's milliseconds modulo 2^32. Elapsed milliseconds on the ESP32 (difference of two readings modulo 2^32) are right across the counter's wrap-around, elapsed microseconds there for all times; on Arduino the 64-bit microsecond ticks are the 32-bit counter, so their difference is the elapsed time iff the counter did not wrap around (every 71.6 minutes) in between.", "quantifier": "all durations and clock behaviours", "why_tests_cant": "All durations; overflow only beyond 71 minutes.", "anchors": ["esp32-esp-idf/Delays.cpp", "esp32-esp-idf/SleepFunctions.h"]}
{"id": "C57", "title": "ESP32 UART byte counts cannot be trusted on driver errors", "statement": "Receive and Send return the driver's count modulo 65536: when the driver reports an error (-1) both return 65535 whatever the buffer size, so the result is not bounded by it; otherwise a count within the buffer size is returned unchanged; Send waits for completion exactly if something was accepted; the wait handed to the driver is the largest whole number of ticks not longer than the requested time.", "quantifier": "all driver results and buffer sizes", "why_tests_cant": "All driver behaviours.", "anchors": ["esp32-esp-idf/PacketUart.cpp: Receive, Send", "esp32-esp-idf/SimpleUartDevice.cpp: sendBlocking, receiveBlocking"]}
{"id": "C58", "title": "Generated glyph table text", "statement": "For any glyph table of at most 95 (ASCII) or 191 entries and an iconv that never reports a single byte as incomplete, TextGlyphStream writes one line per glyph, labelled with consecutive codes (skipping 0x7F..0x9F) in hex and as a character, with the running bitmap offset and the descriptor's numbers right-aligned in their columns (the offset is whole below 100000), and closes the array exactly on the line of the last code; with the bitmap array and the font structure (names up to 300 characters) this gives the text of the whole header file.", "quantifier": "all glyph tables, names, iconv behaviours as described", "why_tests_cant": "All tables.", "anchors": ["gfx-font-converter/main.cpp: TextGlyphStream::operator<<"]}
{"id": "C59", "title": "The shipped font header is the converter's output for its tables", "statement": "graphics/GFXFonts/FreeSans15pt7b.h is, character for character and up to one extra final line feed, the text writeHeaderFile produces for the glyphs and bitmaps in it; its offsets and bitmap table are the ones the converter's binary output has for them.", "quantifier": "the shipped file; all iconv behaviours (not used for ASCII)", "why_tests_cant": "Ties a checked-in artefact to the generator that is not run in the tests.", "anchors": ["graphics/GFXFonts/FreeSans15pt7b.h", "gfx-font-converter/main.cpp: writeHeaderFile"]}
{"id": "C60", "title": "Pin set-up asks for exactly the requested configuration", "statement": "ESP32 init returns false without touching the driver for an invalid pin, else makes one gpio_config call with only that pin's bit in the mask, the requested direction and at most the requested pull, and returns its success; Arduino init hands pinMode exactly the bits of the requested direction and pull.", "quantifier": "all pins, directions, pull modes, constants of the core", "why_tests_cant": "All pins and modes; hardware code has no tests.", "anchors": ["esp32-esp-idf/GpioDigitalPin.cpp: init", "arduino/GpioDigitalPin.cpp: init"]}
{"id": "C61", "title": "UART set-up is done once", "statement": "SimpleUartDevice::init on a port without driver makes the calls configure, set pins (transmit, receive), install in that order with the requested values and a flow-control threshold of 122 iff flow control is on, and aborts at the first that fails; on a port with a driver it returns true and ignores all arguments.", "quantifier": "all arguments and driver behaviours", "why_tests_cant": "Needs the driver.", "anchors": ["esp32-esp-idf/SimpleUartDevice.cpp: SimpleUartDevice::init"]}
{"id": "C62", "title": "I2C probe byte", "statement": "testAddress(a) puts 2*(a mod 128), a write address, on the bus for every 8-bit a, so addresses 128 apart are the same probe.", "quantifier": "all addresses", "why_tests_cant": "Exhaustive over the driver byte; hardware code has no tests.", "anchors": ["esp32-esp-idf/I2CBus.cpp: testAddress"]}
{"id": "C63", "title": "The generated header, read as C, declares the converted font", "statement": "For a font name that is a C identifier of at most 300 characters and a complete table with between 1 and 65535 bytes of bitmap data, the text written by writeHeaderFile, read as C source (tokens, comments, nested initialisers, literals), consists of exactly three declarations whose bitmap array, glyph array (with running offsets), names, first and last code and height are those of the converter's binary output; a font file name that is not an identifier (e.g. with a hyphen) gives a header that does not read as C. The shipped header reads as the shipped font.", "quantifier": "all complete glyph tables, names, heights and iconv behaviours that keep a label on one line", "why_tests_cant": "A test compiles one generated header; here every header the writer can produce is read back by an independent reader, so a wrong separator, offset, bracket or comment in any table is excluded.", "anchors": ["gfx-font-converter/main.cpp: writeHeaderFile, HexStringStream, TextGlyphStream", "graphics/GFXFontsAdapter.h: GlyphDescriptor, FontDescriptor"]}
{"id": "C64", "title": "A text in a converted font is drawn as rendered", "statement": "Render every character, convert, write the header, read it as C and draw a text with the font it declares: for a single-byte encoding, bitmaps of at most 255x255 pixels and 1..65535 bytes of data in total, the pixels painted are exactly those of the rendered characters, each at its rendered offset after the sum of the rendered advances (modulo 256 each) of the characters before it, for every text of stored characters but the last of the table.", "quantifier": "all renderings, tables, texts, rotations, positions such that the text starts and ends within 1000000000 pixels of the origin, on canvases of up to 1000000000 x 1000000000 pixels", "why_tests_cant": "The chain runs through five modules; a test sees one font and one text, the theorem all fonts and texts.", "anchors": ["gfx-font-converter/main.cpp: main, writeHeaderFile", "graphics/EmbeddedFont.cpp: getBitmap", "graphics/Canvas.h: drawStringAt", "graphics/Canvas.cpp: drawCharAt"]}
{"id": "C65", "title": "Written PBM pictures are read back", "statement": "For a picture of w x h > 0 pixels with w*h+7 an int, let N = ceil(w*h/8) and R = ceil(w/8). writePBMBinary returns true and readPBM of its file returns w, h and the first N bytes of the data, zero-filled if there are fewer. writePBM returns true exactly if the data has at least h*R bytes; reading its file back has undefined behaviour exactly if some row k < h begins at a byte k*R with N <= k*R < size of the data, and otherwise again returns w, h and the first N bytes, zero-filled. If w is a multiple of 8 and the data has N bytes, both writers return true and comparePBM of either file is true for exactly this data, width and height. (A 9x3 picture written whole by writePBM cannot be read back.) Other sizes: writePBM writes only the header if h <= 0 and the header and h empty lines if h > 0 and w <= 0, returning true, and is undefined if h > 0 and w + 7 > 2^31-1; writePBMBinary writes only the header if -15 < w*h <= 0 and is undefined if w*h <= -15 or w*h + 7 > 2^31-1.", "quantifier": "all data, all sizes an int can hold", "why_tests_cant": "The tests read two stored files whose width is a multiple of 8; the out-of-bounds write needs a width that is not.", "anchors": ["tests/PBMHelper.cpp: writePBM, writePBMBinary, readPBM, comparePBM"]}
{"id": "C66", "title": "What readPBM accepts and returns", "statement": "A file is read as a picture exactly if it begins with a header: perhaps white space, P1 or P4, white space, a width and a height in the notation C++ streams read an int in (optional sign, digits, within int; a signed height may follow the width without white space), and one line end directly after the height; every other file is rejected. With such a header, -2^31 <= w*h <= 0 is rejected and w*h < -2^31 or w*h + 7 > 2^31-1 is undefined behaviour. Otherwise (also for two negative sizes): for P1 followed by lines of text, readPBM returns width, height and ceil(w*h/8) bytes holding the pixels of the lines that are neither empty nor begin with '#', in order, most significant bit first, characters other than 0 and 1 skipped, surplus pixels of a line ignored, missing ones clear; it writes outside the image exactly if a line that begins with 0 or 1 comes after lines that already hold all 8*ceil(w*h/8) bits. For a P4 file it returns the next ceil(w*h/8) bytes, zero-filled, so a standard file with padded rows is read whole exactly if ceil(w*h/8) = h*ceil(w/8). Whatever the file, a returned image has ceil(w*h/8) > 0 bytes. comparePBM is true exactly if readPBM returns that width, height and data.", "quantifier": "all files (lists of bytes), all widths and heights an int can hold", "why_tests_cant": "The file is arbitrary text; each clause quantifies over all line structures.", "anchors": ["tests/PBMHelper.cpp: readPBM, comparePBM"]}
{"id": "C67", "title": "The converter's command line", "statement": "Every list of argument words consists of options (-x letters, possibly bundled; -f -o -d -s -e with an argument joined or as the next word, whatever it looks like), operands, which are ignored, and an end: the last word, '--' with ignored words after it, or an option whose argument is missing. The constructor's exception terminates the program exactly when some -d or -s argument (overruled or not) does not begin with an int. Otherwise, for a signed char, an encoding with a byte in 128..254 is undefined behaviour (toupper). Otherwise the usage message is shown exactly if there is an unknown letter (-h included), a missing argument or no or an empty font file name. Otherwise the last -f, -e, -s, -d count (defaults ASCII, 12, 141), the output is binary exactly if -b is given, the encoding is upper-cased, the last code is 126 exactly if the encoding is ASCII in any case and 255 otherwise, the character size is 64 times the size below 2^25 and negative (64 times the size less 2^32) from there below 2^26, and a size that is negative or at least 2^26 is undefined behaviour.", "quantifier": "all argument lists, signed and unsigned char", "why_tests_cant": "The command lines are unboundedly many; interactions of bundling, repetition, '--' and missing arguments are combinatorial.", "anchors": ["gfx-font-converter/FontConverterConfig.cpp: FontConverterConfig", "gfx-font-converter/main.cpp: main"]}
{"id": "C68", "title": "The generated font's name", "statement": "The font is named after the font file: its name without directories and extension (a leading dot begins none), the size in decimal, 'pt7b' for ASCII and 'pt8b' otherwise; this determines the name. The name is a C identifier exactly if the file's stem is one and the size is not negative; then, for any rendered table of 1..65535 bytes, the header written for that command line is C source declaring exactly this font with the codes 32..126 or 32..255 (so DejaVuSans-Bold.ttf gives a header that does not compile).", "quantifier": "all paths, sizes, command lines, tables", "why_tests_cant": "No test runs the converter; the condition is on arbitrary file names.", "anchors": ["gfx-font-converter/main.cpp: main, writeHeaderFile"]}
{"id": "C69", "title": "Setting up, probing and resetting the I2C bus", "statement": "On a bus whose devices acknowledge their 7-bit address, the ESP32 testAddress(a) is true exactly if a device has the address a mod 128. Whatever the driver answers, the probe creates one command link, runs it once with exactly what was put into it, for 10 ms in ticks, and deletes it; its result is whether that run reported success. init configures the two pins, pull-ups and frequency as given, installs the driver exactly if the configuration was accepted, and is true exactly if both were. On both platforms resetBus is one complete transmission (ended by a stop condition) of the byte 6 to the general call address 0, on the ESP32 with 200 ticks to do it.", "quantifier": "all sets of devices, addresses, driver answers, histories, tick lengths", "why_tests_cant": "The driver and the bus are the quantified environment; there is no hardware in the tests.", "anchors": ["esp32-esp-idf/I2CBus.cpp: testAddress, init, resetBus", "arduino/I2CBus.cpp: resetBus"]}
{"id": "C70", "title": "The drawings of the tests are the reference pictures, whatever the memory held before", "statement": "For the seven tests of MonochromeFrameBufferTest.cpp (three line pictures on 48x60, the portrait scene in rotations 0 and 180 and the landscape scene in rotations 90 and 270 on 280x480) and the reference files in tests/data: for every content of the uninitialised frame-buffer memory and for signed and unsigned char, clearing, drawing all lines, rectangles, circles and the text, and comparing with the file succeeds in every assertion, including those that redraw the lines with exchanged end points and in the other rotations.", "quantifier": "all initial contents of the frame buffers, both signednesses of char; the scenes and files are those of the repository", "why_tests_cant": "A test run sees one content of the uninitialised memory and one platform; it cannot show that no assertion depends on them.", "anchors": ["tests/MonochromeFrameBufferTest.cpp:13-220", "tests/data/MonochromeFrameBufferTest0.pbm:1-482", "graphics/Canvas.cpp:5-158", "graphics/SimpleFrameBuffer.h:9-88"]}
{"id": "C71", "title": "A saved frame buffer shows what was drawn", "statement": "Saving the image of a non-empty monochrome frame buffer with writePBM succeeds and gives a P1 file with one line per row and one pixel character per pixel, which is 1 exactly for the set pixels. After clear(0) and a drawing call that paints the set S of logical pixels, in any rotation, the character at the rotated position of a logical pixel is 1 exactly if it is in S. The tests' checkBuffer accepts a file, in any rotation, exactly if reading it gives the size and the bytes of the frame buffer; so a text or binary file saved from one frame buffer is accepted for another one exactly if size and image are equal.", "quantifier": "all monochrome frame buffers of positive size, all rotations, all drawing calls that paint a set of pixels (C27-C35 give them), all files", "why_tests_cant": "The tests compare seven fixed pictures with files; they cannot show that every drawing is saved as drawn or that every difference is noticed.", "anchors": ["tests/PBMHelper.cpp:80-159", "tests/MonochromeFrameBufferTest.cpp:58-79", "graphics/SimpleFrameBuffer.h:17-88", "graphics/Canvas.h:29-94"]}
{"id": "C72", "title": "Scaling, division, matrix products and conversion of integer geometry are exact", "statement": "For int: scaling a size gives both products if they are ints and is undefined otherwise; dividing a size gives both quotients rounded towards zero, and for ints is undefined exactly for the divisor 0 and for INT_MIN divided by -1; division undoes a scaling that was defined. A 2x2 matrix times a point is the usual product, defined exactly if no product or sum leaves int; the canvas's transform matrices turn a vector by the quarter turns of the rotation and keep its length. Converting a rectangle from another integer type keeps values that are ints and changes the others by a multiple of 2^32.", "quantifier": "all sizes, scales, matrices, vectors, rotations and rectangles", "why_tests_cant": "Each operation is tested on one small pair of positive numbers; overflow, negative and zero divisors and rounding are not tried.", "anchors": ["graphics/BaseGeometry.h:25-33", "graphics/BaseGeometry.h:76-78", "graphics/BaseGeometry.h:107-120", "graphics/Canvas.cpp:191-204"]}
{"id": "C73", "title": "Resources, failures and exit code of the font converter", "statement": "Whatever FreeType, iconv and the file system answer: (a) every library, face, glyph, conversion descriptor and file the converter obtains is used only while open and is given back exactly once by the matching function, most recent first, also when an exception is thrown; (b) the exit code of a conversion is 0 exactly if no call failed, and after the first failed call nothing happens but giving back, with exit code 1 (a usage request gives 1, a bad number an abort, both without any call); (c) a file is created or overwritten only after all 95 or 191 characters were loaded; (d) whatever fails, every call is made with what the command line asks for and in its turn: the directory of -o is inspected, the font file of -f is opened after the interpreter version was set, the face is scaled to (size, 0) at (dpi, 0), a character is loaded only from a scaled face, rendered directly after it was loaded, copied directly after it was rendered and read directly after it was copied, conversions are from the chosen encoding to UCS-4LE before any file is opened and to UTF-8 only into an opened header, and only the files named after the font are opened, in the directory asked for or the program's; (e) iconv gets exactly the codes of the font in order (for UTF-8 those above 126), each behind the bytes kept from earlier calls with the same descriptor (the input while it is incomplete and shorter than 3 bytes, nothing after an error, all but the last byte after a success), and the character loaded is the little-endian value of its answer to the call just before, 0 if there is none; (f) nothing is undefined if the rendered bitmaps are as large as they say, the name has at most 300 characters and FreeType has a text for every error it reports; without one for the error of a failing call (initialising, opening, scaling, loading or rendering) the behaviour is undefined, otherwise the run is the same as with all texts. Not guaranteed, by counterexample: that write errors are noticed, that a failing run leaves no incomplete file, and that a missing font file is reported (FT_Error_String gives a null pointer in FreeType's default configuration).", "quantifier": "all command lines, all answers of the libraries (any function of the calls so far)", "why_tests_cant": "No test runs the converter; the failures are combinations of library answers at any of several hundred calls.", "anchors": ["gfx-font-converter/main.cpp: main, writeHeaderFile", "gfx-font-converter/FreeTypeLibrary.cpp", "gfx-font-converter/FreeTypeFace.cpp: renderGlyph, setCharSize", "gfx-font-converter/FreeTypeGlyph.cpp", "gfx-font-converter/EncodingConverter.cpp: EncodingConverter"]}
{"id": "C74", "title": "From the command line to texts drawn with the converted font", "statement": "If no library call fails, a run of the converter exits with 0; its only file is <name>.h (with -b: <name>Bitmaps.bin and <name>Glyphs.bin) in the directory given by the last -o if that is a directory, else in the directory of the program; exactly the codes 32..126 or 32..255 without 0x7F..0x9F were asked of the font, translated by iconv, in order. Read as C, the header declares the font of that name and height, and every text of its characters (but the last code) drawn with it on a canvas is what FreeType rendered, set one after the other. The binary files are the packed bitmaps one after the other and one seven-byte record per character with its metrics and the start of its bitmap modulo 65536.", "quantifier": "all command lines, program paths, single-byte encodings, rendered fonts of 1..65535 bytes, texts, rotations, positions such that the text starts and ends within 1000000000 pixels of the origin, on canvases of up to 1000000000 x 1000000000 pixels", "why_tests_cant": "The whole chain from the command line over the generated file to the picture is quantified over every font and text.", "anchors": ["gfx-font-converter/main.cpp: main, writeHeaderFile", "gfx-font-converter/FontConverterConfig.cpp", "graphics/Canvas.cpp: drawString"]}
{"id": "C75", "title": "Packets are received one by one", "statement": "Calls of ReceiveBetween in a row on one line return exactly the packets (start byte, body without the end byte, end byte) on it, in order, none lost, repeated or merged, whatever noise without the start byte lies between them and also if bodies contain the start byte, provided every packet fits the buffer and no deadline passes (ESP32: every noise byte is there when asked for; inside a packet requests may go unanswered). On Arduino a packet that exactly fills the buffer leaves its end byte on the line; that is harmless if start and end byte differ, but if they are the same byte the next call always returns an empty packet instead of the one that follows. Packets sent one by one with the Arduino Send form exactly such a line.", "quantifier": "all lines, packets, noise, buffers, clocks, and numbers of calls", "why_tests_cant": "Needs unboundedly many packets on a simulated line with arbitrary timing.", "anchors": ["esp32-esp-idf/PacketUart.cpp: PacketUart::ReceiveBetween", "arduino/PacketUart.cpp: PacketUart::ReceiveBetween, PacketUart::Send"]}
{"id": "C76", "title": "Circles are closed connected curves around digital discs", "statement": "For any radius from 1, under any rotation and wherever the circle is defined (C83), drawCircle(c,r,true) paints exactly the visible pixels of a digital disc that contains every pixel at distance at most r from the centre and none at distance r+1/2 or more, and drawCircle(c,r) paints exactly the edge of that disc (its pixels having a side in common with a pixel outside): so every path of pixels joined by sides from inside to outside crosses the outline. The outline is one curve connected over sides and corners. Outlines with the same centre and different radii share no pixel and the smaller disc lies strictly inside the larger one, but the outlines of all radii together do not cover the plane (refuted: pixel (6,6) between radii 8 and 9).", "quantifier": "all radii, centres, canvases, rotations and paths", "why_tests_cant": "All radii and all paths.", "anchors": ["graphics/Canvas.cpp: Canvas::drawCircle"]}
{"id": "C77", "title": "Several storage objects can share a region if only up-to-date ones add entries", "statement": "Take any number of PersistentStorage objects over one region, made when it was empty or later with init=false. If a new name is only ever set by an object that knows of all entries (in particular, if only one object calls set), every call is answered as by one map: an object sees, with their latest values whoever set them, exactly the entries that were there when it was made or when it last added one; it can change those for all objects; later entries it does not see. If an object adds an entry while it does not know of all of them, this fails (refuted): it answers true, overwrites the entries it does not know of, and a later get through another object can loop forever.", "quantifier": "all region sizes, numbers of objects and call sequences", "why_tests_cant": "All interleavings of calls on any number of objects.", "anchors": ["PersistentStorage.h: PersistentStorage::get, set", "PersistentStorage.cpp: PersistentStorage::PersistentStorage"]}
{"id": "C78", "title": "Devices on one SPI bus do not disturb each other", "statement": "Several devices share an SPI bus, each with its own select pin, and every conversation is a block with a ChipSelector holding any number of sendSync, receiveSync and sendAndReceive calls. Then every device, whatever it answers, sees exactly the bytes of its own conversations, one frame each, in order; every call returns true, and what each call receives is what the device would have answered were it alone on the bus with the same earlier conversations, so it does not depend on the other devices or on noise while none is selected. On ESP32 this holds for any piece size and for the calls the bus mode is meant for (half duplex: send and receive; full duplex: exchange, and send if the data fit one piece or fill the last piece; any other send in full duplex returns false after its whole pieces have gone out). It fails when a selector is nested in the block of another device (refuted): the outer device then sees the inner device's bytes too.", "quantifier": "all devices (as functions of their history), numbers of devices, conversations and data", "why_tests_cant": "All devices and all interleavings of conversations; the hardware code has no tests.", "anchors": ["GpioDigitalPin.h: ChipSelector", "SpiDevice.h: SpiDevice::sendSync, receiveSync, sendAndReceive", "arduino/SpiBus.cpp: SpiBus::transfer", "esp32-esp-idf/SpiBus.cpp: SpiBus::transfer"]}
{"id": "C79", "title": "Debug lines reach the UART complete, in order and waited for", "statement": "For any sequence of DEBUG_LOG statements printing C strings, integers and byte spans, the serial driver is given exactly the text of each statement (clipped to 128 bytes) with a newline, one write per line (two when the text fills the 128 bytes), in order. On Arduino each write happens with a timeout of 100, is flushed, and the device's own timeout is put back. On ESP32 uart_wait_tx_done is called after a write exactly when the driver took something; with a driver that takes all it is given all lines leave complete, with one that refuses (not installed) nothing leaves and nothing is waited for.", "quantifier": "all sequences of lines, all driver answers, all device timeouts", "why_tests_cant": "All line sequences and driver answers; the debug output is hardware code without tests.", "anchors": ["Debug.h: DEBUG_LOG", "arduino/SerialDebug.cpp: SerialDebug", "esp32-esp-idf/SerialDebug.cpp: SerialDebug", "arduino/SerialOut.cpp: SerialOut::flush", "esp32-esp-idf/SerialOut.cpp: SerialOut::flush", "arduino/PacketUart.cpp: PacketUart::Send", "esp32-esp-idf/SimpleUartDevice.cpp: sendBlocking"]}
{"id": "C80", "title": "Lines are received one by one; what one device logs another reads", "statement": "Calls of ReceiveUntil in a row: on the ESP32 they return together exactly the bytes taken from the driver, in order, whatever arrives and whenever; each returned piece contains the end byte at most as its last byte and is complete, fills the buffer or ran into its deadline; lines that fit are returned one by one unless a deadline passes. On Arduino each call returns the bytes it took and an end byte; lines with one byte to spare are returned one by one, but a line that fills the buffer is followed by an empty line nobody sent. Debug lines without newlines inside, printed on either platform, are read by either platform as exactly those lines.", "quantifier": "all numbers of calls, streams, pauses, buffer sizes below 65536, end bytes, timeouts, texts", "why_tests_cant": "Streams, pauses and numbers of calls are unbounded, and the hardware drivers are not available in the unit tests.", "anchors": ["esp32-esp-idf/PacketUart.cpp: PacketUart::ReceiveUntil", "arduino/PacketUart.cpp: PacketUart::ReceiveUntil", "Debug.h: DEBUG_LOG"]}
{"id": "C81", "title": "Drawing calls obey the painter's rule", "statement": "After any sequence of setColor, clear, setRotation and drawing calls on a canvas, every pixel shows what the last call covering it gave it: the colour selected at that time for a shape (taken in the rotation set at that time), the background colour for clear, the old value if no call covers it. Hence drawing something again in another colour replaces it completely, drawings in the same colour can be exchanged and repeated without effect on the image, drawing in the background colour erases exactly, and nothing drawn before a clear leaves a trace.", "quantifier": "all call sequences, all drawing operations covered by C26-C35, all frame buffers of depth 1, 4, 8, 16 and 24 and their contents, all colours and rotations", "why_tests_cant": "The number of call sequences is unbounded; the tests compare seven final pictures.", "anchors": ["graphics/Canvas.h: Canvas::setColor", "graphics/Canvas.h: Canvas::clear", "graphics/Canvas.h: Canvas::setRotation", "graphics/Canvas.h: Canvas::drawPixel", "graphics/SimpleFrameBuffer.h: setColor", "graphics/SimpleFrameBuffer.h: clear"]}
{"id": "C82", "title": "Shapes and texts move with their position", "statement": "For each rotation, a pixel, line, rectangle, filled rectangle, circle (any radius) or filled circle has one set of pixels S such that on every canvas, moved by any displacement d, it paints exactly the visible part of S moved by d; texts have one such set for all rotations.", "quantifier": "all shapes, texts, displacements, canvas sizes and rotations; shapes within +-2^28 and texts within +-1000000000 are always defined, beyond that the claim holds whenever a call is defined (C83, C84)", "why_tests_cant": "All displacements and canvas sizes; clipping at the edges must not change the visible part of a shape.", "anchors": ["graphics/Canvas.cpp: Canvas::drawLine", "graphics/Canvas.cpp: Canvas::drawRectangle", "graphics/Canvas.cpp: Canvas::drawFilledRectangle", "graphics/Canvas.cpp: Canvas::drawCircle", "graphics/Canvas.cpp: Canvas::drawStringAt"]}
{"id": "C83", "title": "Exactly which coordinates the drawing calls can take", "statement": "For a canvas whose two sides are any ints >= 0 and arguments that are any ints: (a) drawPixel is defined exactly if the pixel's place in the frame buffer has int coordinates, and then paints that pixel. (b) drawLine is defined exactly if both ends have int coordinates in the frame buffer, the horizontal and vertical distance are ints (for horizontal, vertical and one-point lines also the number of pixels), the column (for lines higher than wide: the row) after the last pixel is an int, and, for lines steeper than 1:2, so is one further step sideways after the end; whenever it is defined it paints exactly the pixels of C27. (c) drawRectangle is defined exactly if the corner used for the rotation and its image are ints and, in the frame buffer, the last column and row and the ones after them are ints; then it paints the outline. (d) drawFilledRectangle is defined exactly if the same holds for the corner, and the size less one and the last column and row are ints; then it paints the rectangle's pixels on the canvas. (e) drawCircle with a radius r of 1 or more is defined exactly if the centre has int coordinates in the frame buffer, the four extreme points do too (when filled, also the column after the right one), and the error term fits: v^2+(y+2)^2-r^2 <= INT_MAX for all v,y >= 0 with v^2+(y+1)^2 <= r^2+y; for a radius of 0 or less, exactly if the radius is at least -536870910 and the one or two points of the row are ints (when filled with radius 0, also the column after it). Then it paints the ring or disc of C31/C32. (f) The error term fits for all radii up to 715827882 and for none from 715829428 on, so those circles are never defined, wherever the centre is; in between it is not monotone in the radius (refuted: 715827999 does not fit, 715829399 does). (g) On a canvas of any size every line between two of its points and every non-empty rectangle on it satisfies these conditions.", "quantifier": "all canvas sizes from 0 to INT_MAX, all four rotations, all int coordinates, sizes and radii, all frame-buffer contents", "why_tests_cant": "The conditions are about single overflowing steps at the ends of loops of up to 2^31 iterations, for 2^128 pairs of points; a test on a real device cannot even run the long loops, and an overflow that happens after the last pixel leaves no visible trace.", "anchors": ["graphics/Canvas.cpp:31-189", "graphics/Canvas.h:57-90", "graphics/BaseGeometry.h:91-104"]}
{"id": "C84", "title": "Exactly where texts can be drawn and which texts can be measured", "statement": "For a canvas whose two sides are any ints >= 0 and positions that are any ints: (a) drawCharAt is defined exactly if the font has a bitmap for the character (C36, C37), its data bytes are inside the font, the corner of the glyph's box is an int point, and every set pixel is one too, on the canvas, in the frame buffer and with the coordinates negated that the rotation mirrors (this last condition matters for canvases of side 0 only; pixels that are not set do not matter); then it paints exactly the set pixels and returns the advance. (b) drawStringAt is defined exactly if this holds for each character at its place after the advances of the ones before it, and the x coordinate after the last character is an int as well; then it paints the text. (c) So with complete glyphs every text is painted on canvases of up to 1000000000 x 1000000000 pixels if it starts and ends within 1000000000 pixels of the origin. (d) getTextBounds is defined exactly if the font has bitmaps for all characters and, for texts of two or more characters, w(first) + the advances of the middle characters + w(last) is an int; otherwise it overflows or never returns.", "quantifier": "all fonts the types allow, all texts of any length, all positions (two ints), all canvas sizes from 0 to INT_MAX, all four rotations, both signednesses of char, all frame-buffer contents", "why_tests_cant": "The overflows are at the ends of the int range, for all glyph shapes and rotations; the one after the last character leaves no visible trace, and the one in getTextBounds needs a text of millions of characters.", "anchors": ["graphics/Canvas.cpp:5-29", "graphics/Canvas.h:62-69", "graphics/EmbeddedFont.cpp:35-61"]}
{"id": "C85", "title": "Uses of an Arduino SPI bus: raw sends stay outside transactions, which never nest or stay open", "statement": "For every sequence of calls of transfer, sendByte and sendBytes on one Arduino SpiBus, with any (overlapping at most exactly) caller buffers: sendByte and sendBytes clock out exactly the given byte or bytes, in order and without opening a transaction, and leave memory alone; a transfer clocks its bytes inside one transaction of its own, which is closed when it returns. Hence after any sequence the history of the bus consists of bytes outside transactions and complete, unnested transactions; the bytes clocked inside transactions are exactly those of the transfers in call order, and those outside exactly those of the raw sends in call order, where each call sends the memory left by the calls before it.", "quantifier": "all sequences of calls, all lengths, data, memories, earlier balanced histories and slave responses", "why_tests_cant": "All sequences of calls with memory flowing from received to sent data; the SPI class is not available on the host.", "anchors": ["arduino/SpiBus.h: SpiBus::transfer, sendByte, sendBytes", "arduino/SpiBus.cpp"]}
{"id": "C86", "title": "Devices on one I2C bus do not disturb each other", "statement": "For every sequence of sendSync, receiveSync and sendThenReceive calls of any number of I2CDevice objects on one bus, on both platforms: what the calls for one bus address return, what they leave in their receive buffers, and the messages the device at this address sees, are exactly as if this device were alone on the bus with the same calls in the same order; so no call reaches another device or depends on one. Addresses count modulo 128: objects whose addresses are 128 apart talk to the same device. sendThenReceive is two messages, the second only if the first was acknowledged. On Arduino messages are limited by the queue of TwoWire: a longer sendSync returns false although the device has seen the part that fitted, and a longer receiveSync returns false, storing nothing; a receiveSync of no bytes returns true there even if nobody acknowledges it.", "quantifier": "all devices (arbitrary functions of their messages), sequences of calls, addresses, data, counts, queue sizes", "why_tests_cant": "All interleavings of calls for arbitrarily behaving devices; the drivers are not available on the host.", "anchors": ["I2CDevice.h: I2CDevice", "arduino/I2CDevice.cpp", "esp32-esp-idf/I2CDevice.cpp"]}
