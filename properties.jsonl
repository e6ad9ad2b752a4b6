{"id": "C01", "title": "BitField constructor accepts exactly the documented configurations", "statement": "BitField(value, width, numbering, order) (width >= 0) raises ValueError exactly when width > 64, value > 2^width-1, numbering is not one of the four schemes or order is not one of the two orders; otherwise the new object reports back exactly that value, width, numbering and order and maxval = 2^width-1.", "quantifier": "every integer value, width >= 0, numbering and order", "why_tests_cant": "the argument space is infinite; tests try two rejected and a handful of accepted constructions", "anchors": ["h800/bitfield.py:BitField.__init__", "h800/bitfield.py:BitField.value", "h800/bitfield.py:BitField.maxval"]}
{"id": "C02", "title": "BitField constructor admits only representable values", "statement": "A BitField can be constructed only with an initial value between 0 and 2^width-1.", "quantifier": "every integer initial value and width", "why_tests_cant": "needs a universally quantified rejection; a passing test only shows one rejected value", "anchors": ["h800/bitfield.py:BitField.__init__"]}
{"id": "C03", "title": "Single-bit read is the documented bit, in all eight layouts", "statement": "For each bit ordering and numbering scheme, reading b[i] returns the bit of the stored value that the layout tables at the top of bitfield.py give to index i, for exactly the indices shown there (0..N-1 or 1..N), and raises ValueError for every other index.", "quantifier": "all 8 order/numbering combinations, all widths, all stored values, all integer indices", "why_tests_cant": "8 layouts x unbounded widths/values/indices; tests use two layouts and a few indices", "anchors": ["h800/bitfield.py:BitField.__getitem__", "h800/bitfield.py:BitField._rindex", "h800/bitfield.py:BitField._shift", "h800/bitfield.py:BitField._checkIndex"]}
{"id": "C04", "title": "Single-bit write changes exactly that bit", "statement": "For a valid index i, b[i]=1 sets and b[i]=0 clears the bit that b[i] reads and leaves every other bit of the value as it was; an invalid index raises ValueError and changes nothing.", "quantifier": "all 8 layouts, all widths, all in-range values, all integer indices", "why_tests_cant": "it is a frame condition: every other bit must stay as it was, for each value and index; a test compares one value before and after", "anchors": ["h800/bitfield.py:BitField.__setitem__"]}
{"id": "C05", "title": "Slice read on MSB-left fields is the inclusive bit range", "statement": "On an MSB-left field of any numbering scheme, b[start:end] (inclusive, most significant first) is the unsigned number formed by exactly those bits; ranges with an invalid end point or written in the wrong direction raise ValueError.", "quantifier": "all widths, values, numbering schemes, start/end pairs", "why_tests_cant": "ranges and values are unbounded in number; the tests use a dozen ranges of two fields and no invalid ones", "anchors": ["h800/bitfield.py:BitField.__getitem__", "h800/bitfield.py:BitField._checkRange", "h800/bitfield.py:BitField._bitmask"]}
{"id": "C06", "title": "Slice write on MSB-left fields stores the value and preserves all other bits", "statement": "On an MSB-left field, assigning a fitting value v (0 <= v < 2^n) to an n-bit range makes the range read back v, and no bit outside the range changes.", "quantifier": "all widths, values, numbering schemes, ranges, fitting v", "why_tests_cant": "a frame property over all bits outside the range, for every value stored before and every value written", "anchors": ["h800/bitfield.py:BitField.__setitem__"]}
{"id": "C07", "title": "Slices work the same on LSB-left fields (the default order)", "statement": "On an LSB-left (MSB-right) field - the constructor default - b[start:end] reads exactly the bits of the range and assignment to it reads back and preserves the other bits.", "quantifier": "all widths, values, numbering schemes, ranges of LSB-left fields", "why_tests_cant": "the one existing LSB-left slice test passes although almost all ranges are wrong: the sampled data hides the fault", "anchors": ["h800/bitfield.py:BitField._bitmask", "h800/bitfield.py:BitField.__getitem__", "h800/bitfield.py:BitField.__setitem__"]}
{"id": "C08", "title": "A value that does not fit its bit range is rejected", "statement": "Assigning to an n-bit range, to a single bit or to .value raises ValueError whenever the assigned number is negative or >= 2^n.", "quantifier": "all integers assigned, all ranges and single bits, all fields", "why_tests_cant": "the boundary is 2^n for each n, and every negative number must be rejected too; a test can only try some numbers near some boundaries", "anchors": ["h800/bitfield.py:BitField._checkValue", "h800/bitfield.py:BitField.__setitem__", "h800/bitfield.py:BitField.value"]}
{"id": "C09", "title": "Field value stays within its width over every history of fitting operations", "statement": "Starting from a representable value, after any sequence of bit writes, slice writes, value writes, set and clear calls (whatever indices and ranges they use, failing or not) whose assigned numbers fit, in either order and any numbering, 0 <= value <= maxval.", "quantifier": "all finite histories of operations, failing or not, all layouts and widths", "why_tests_cant": "histories are unbounded, and an overflow needs a particular earlier state; needs an invariant", "anchors": ["h800/bitfield.py:BitField"]}
{"id": "C10", "title": "A rejected BitField operation has no effect", "statement": "Every BitField operation that raises leaves value, width, numbering and order exactly as before.", "quantifier": "all operations, arguments and states (including out-of-range states)", "why_tests_cant": "quantifies over every failing call in every state, including states that no test sets up", "anchors": ["h800/bitfield.py:BitField.__setitem__", "h800/bitfield.py:BitField.set", "h800/bitfield.py:BitField.clear", "h800/bitfield.py:BitField.value"]}
{"id": "C11", "title": "set()/clear() without index and with a non-zero index", "statement": "set() makes every bit 1, clear() every bit 0; set(i)/clear(i) for a valid i other than 0 changes exactly bit i.", "quantifier": "all layouts, widths, values, indices != 0", "why_tests_cant": "the frame part is about all values of the other bits", "anchors": ["h800/bitfield.py:BitField.set", "h800/bitfield.py:BitField.clear"]}
{"id": "C12", "title": "set(i)/clear(i) touch only bit i for every valid index", "statement": "For every valid index i, including 0, set(i) and clear(i) change bit i only.", "quantifier": "all layouts, widths, values, valid indices", "why_tests_cant": "fails at one index only (0, which is taken for a missing argument), a case the tests leave out", "anchors": ["h800/bitfield.py:BitField.set", "h800/bitfield.py:BitField.clear"]}
{"id": "C13", "title": "indices, lsb and msb describe the field", "statement": "indices lists every valid index exactly once, left to right as in the layout table; b[b.lsb] is the units bit and b[b.msb] the most significant bit of the value.", "quantifier": "all layouts, widths >= 1, values", "why_tests_cant": "the list depends on the width, which is unbounded, and on the layout; the tests print the list and check nothing about it", "anchors": ["h800/bitfield.py:BitField.indices", "h800/bitfield.py:BitField.lsb", "h800/bitfield.py:BitField.msb", "h800/bitfield.py:BitField._vindex"]}
{"id": "C14", "title": "isBit / isBitSet / isBitClr agree with the bit", "statement": "isBitSet(i) is true iff bit i is 1, isBitClr(i) iff it is 0, isBit(i,v) iff it equals v; all three raise ValueError exactly for invalid indices; none changes the field.", "quantifier": "all layouts, widths, values and integer indices", "why_tests_cant": "three predicates must agree with the bit at every index of every value and reject all other indices", "anchors": ["h800/bitfield.py:BitField.isBit", "h800/bitfield.py:BitField.isBitSet", "h800/bitfield.py:BitField.isBitClr"]}
{"id": "C15", "title": "isRangeSet is true exactly when every bit of the range is 1", "statement": "isRangeSet(start,end) (and isRange(start,end,1)) returns True iff all bits of the range are 1.", "quantifier": "all MSB-left fields, values, ranges", "why_tests_cant": "the only range tested ends at the units bit, where the fault does not show", "anchors": ["h800/bitfield.py:BitField.isRange", "h800/bitfield.py:BitField.isRangeSet"]}
{"id": "C16", "title": "isRangeClr is true exactly when every bit of the range is 0", "statement": "isRangeClr(start,end) returns True iff all bits of the range are 0 (isRange(start,end,0) likewise).", "quantifier": "all MSB-left fields, values, ranges", "why_tests_cant": "needs ranges of mixed bits, over all positions and values", "anchors": ["h800/bitfield.py:BitField.isRange", "h800/bitfield.py:BitField.isRangeClr"]}
{"id": "C17", "title": "Geometry of a field is immutable", "statement": "width, len(), maxval, numbering, order, indices, lsb and msb are the same after any history of operations.", "quantifier": "all histories of operations on all fields", "why_tests_cant": "unbounded histories; a test checks the geometry of a new object", "anchors": ["h800/bitfield.py:BitField"]}
{"id": "C18", "title": "repr is the binary numeral of the value", "statement": "repr(b) of a field of width >= 1 holding a representable value is exactly width characters, all '0' or '1', whose base-2 value is b.value.", "quantifier": "all widths >= 1 and values", "why_tests_cant": "the numeral must be right for each of 2^width values and each width, with leading zeros", "anchors": ["h800/bitfield.py:BitField.__repr__"]}
{"id": "C19", "title": "An MSB-left field behaves as an array of bits over any history", "statement": "For any sequence of fitting operations on an MSB-left field (set/clear with an explicit index 0 excluded, see C12), every read (bit, slice, value) returns what an array of width booleans updated by the same operations would return, and operations raise exactly when the array's indices/ranges are invalid.", "quantifier": "all histories, widths, numbering schemes", "why_tests_cant": "a refinement statement over unbounded histories: each read depends on all earlier writes", "anchors": ["h800/bitfield.py:BitField"]}
{"id": "C20", "title": "Word stores exactly the 48-bit integers", "statement": "Word(v) and w.value = v raise ValueError iff v < 0 or v >= 2^48 (leaving the word unchanged); otherwise w.value is v.", "quantifier": "all integers, as constructor argument and as assigned value", "why_tests_cant": "2^48 accepted values and infinitely many rejected ones", "anchors": ["h800/word.py:Word.__init__", "h800/word.py:Word.value"]}
{"id": "C21", "title": "InstructionWord packs command/A/B/C at bits 1-12/13-24/25-36/37-48", "statement": "For fields in 0..4095, InstructionWord(command,a,b,c).value = command*2^36 + a*2^24 + b*2^12 + c and the four properties read the fields back; conversely, after w.value = v the four properties are the base-4096 digits of v.", "quantifier": "all 2^48 combinations of the four fields", "why_tests_cant": "the combinations cannot be enumerated; a swap or overlap of fields shows only for some of them", "anchors": ["h800/word.py:InstructionWord"]}
{"id": "C22", "title": "InstructionWord field setters are independent", "statement": "Setting one field to a value in 0..4095 changes that field only; over any history of fitting setter and value writes each property reads the last value written to it.", "quantifier": "all histories of field and value writes", "why_tests_cant": "unbounded histories of writes; independence is a statement about each field after writes to the others", "anchors": ["h800/word.py:InstructionWord.a", "h800/word.py:InstructionWord.command"]}
{"id": "C23", "title": "InstructionWord rejects field values that do not fit 12 bits", "statement": "The constructor and the field setters raise ValueError for every field value outside 0..4095, so that one field can never alter another.", "quantifier": "all integers, all four fields", "why_tests_cant": "all integers outside 0..4095, in the constructor and in every setter", "anchors": ["h800/word.py:InstructionWord.__init__"]}
{"id": "C24", "title": "A rejected InstructionWord write is not observable", "statement": "If a field or value assignment raises, value, command, a, b and c all read as before.", "quantifier": "all states and all arguments of failing assignments", "why_tests_cant": "the state before the failure is arbitrary; a test can only fix one state and one bad value", "anchors": ["h800/word.py:InstructionWord"]}
{"id": "C25", "title": "MemoryBank is 2048 independent 48-bit cells", "statement": "A new bank reads 0 everywhere; after any history of bank[i]=v, bank[i:j]=v, clear() and writes through words obtained by iteration, bank[i] is the last value written to cell i (0 if none), for every i in 0..2047.", "quantifier": "all operation histories and addresses", "why_tests_cant": "unbounded histories over 2048 cells, with aliases (words obtained by iteration) writing to the same cells", "anchors": ["h800/memory.py:MemoryBank"]}
{"id": "C26", "title": "Bad memory addresses and values are rejected without effect", "statement": "bank[i] and bank[i]=v raise KeyError iff i is not in 0..2047; for a good address bank[i]=v raises ValueError iff v is not in 0..2^48-1; a raising single-cell assignment changes no cell.", "quantifier": "all integers i and v, all banks reachable by any history", "why_tests_cant": "the rejected addresses and values are infinitely many, and the frame part is about 2048 cells", "anchors": ["h800/memory.py:MemoryBank.__getitem__", "h800/memory.py:MemoryBank.__setitem__"]}
{"id": "C27", "title": "Bank slices are half-open and read/write every listed cell", "statement": "bank[i:j] returns the values of cells i..j-1 in order, bank[i:j]=v stores v in exactly those cells, when 0<=i, j<=2048.", "quantifier": "all bounds, all banks reachable by any history, all values", "why_tests_cant": "the number of ranges is over two million, each with a frame condition on the other cells", "anchors": ["h800/memory.py:MemoryBank.__getitem__", "h800/memory.py:MemoryBank.__setitem__"]}
{"id": "C28", "title": "A failing bank slice assignment has no effect", "statement": "If bank[i:j]=v raises, no cell has changed.", "quantifier": "all bounds and values", "why_tests_cant": "partial effects appear only for ranges that cross the end of the bank", "anchors": ["h800/memory.py:MemoryBank.__setitem__"]}
{"id": "C29", "title": "Iterating a bank visits all 2048 words, every time", "statement": "Each `for w in bank` loop visits the 2048 words in address order.", "quantifier": "all histories of loops and writes", "why_tests_cant": "the existing test's second loop silently iterates over nothing", "anchors": ["h800/memory.py:MemoryBank.__iter__", "h800/memory.py:MemoryBank.__next__"]}
{"id": "C30", "title": "Modules hold independent banks and report their capacity", "statement": "MemoryModule has 4 and ExpansionMemoryModule 8 banks, size() is 8192 / 16384 after any history, and writes through m[i] change no other bank; m[i] raises KeyError outside the bank range; m[a:b] is the banks a to b-1, empty if b <= a, a KeyError if one of them does not exist, a TypeError if a or b is missing.", "quantifier": "all histories of operations over all banks of a module", "why_tests_cant": "independence of the banks needs histories that interleave them without bound", "anchors": ["h800/memory.py:MemoryModule", "h800/memory.py:ExpansionMemoryModule"]}
{"id": "C31", "title": "MemoryBank.value gives access to a cell", "statement": "The value property of MemoryBank can be read and assigned.", "quantifier": "all banks and assigned values", "why_tests_cant": "no test touches the property; that it can never work is a statement about every state", "anchors": ["h800/memory.py:MemoryBank.value"]}
{"id": "C32", "title": "Register names and numbers correspond one to one", "statement": "registerNumber/registerName are inverse bijections between the 32 register names and 0..31; registerNumber also maps the four aliases, registerAlias is a right inverse of it that prefers aliases; everything else raises ValueError.", "quantifier": "all integers and all strings", "why_tests_cant": "the rejection is of all other strings and integers, and the inverse laws range over both tables at once", "anchors": ["h800/registers.py:registerName", "h800/registers.py:registerAlias", "h800/registers.py:registerNumber"]}
{"id": "C33", "title": "Register stores exactly the integers of its width", "statement": "Register(data,name,width) raises ValueError iff data is outside 0..2^width-1, or a non-empty name is not a register name or alias, or width is not 16 or 24; r.value=v likewise accepts exactly 0..2^width-1 and a rejected write changes nothing; value reads back.", "quantifier": "all integers, names, widths", "why_tests_cant": "all integers are candidates for the value, and every string for the name", "anchors": ["h800/registers.py:Register.__init__", "h800/registers.py:Register.value"]}
{"id": "C34", "title": "Register bits are numbered 1..width from the left and independent", "statement": "r[i] is the i-th most significant bit, r[i:j] the inclusive range; fitting writes to them change only those bits.", "quantifier": "all registers of both widths, all values, indices and ranges", "why_tests_cant": "a frame property for every value and every range", "anchors": ["h800/registers.py:Register.__getitem__", "h800/registers.py:Register.__setitem__"]}
{"id": "C35", "title": "RegisterGroup lookup by name and by number is the same register", "statement": "In a new group, g[name] and g[number] are the same object for each of the 32 registers; any other number or string raises ValueError.", "quantifier": "all keys", "why_tests_cant": "that everything else is rejected is about all integers and all strings", "anchors": ["h800/registers.py:RegisterGroup.__getitem__"]}
{"id": "C36", "title": "Every name a Register may carry can be used to look it up in a group", "statement": "g[name] works for every name accepted by Register(), aliases included, giving the register registerNumber(name).", "quantifier": "all 36 names and aliases, all groups", "why_tests_cant": "the tests look registers up by their own names; the four aliases are accepted by Register but not by a group", "anchors": ["h800/registers.py:RegisterGroup.__getitem__", "h800/registers.py:REGISTER_NAMES"]}
{"id": "C37", "title": "Assigning a register into a group replaces it", "statement": "After g[key] = r, with key a register name or number, g[key] is r and len(g) is unchanged.", "quantifier": "all keys, groups and registers", "why_tests_cant": "no test assigns a register into a group; the claim is about every key and every group", "anchors": ["h800/registers.py:RegisterGroup.__setitem__"]}
{"id": "C38", "title": "clear() zeroes every register", "statement": "After g.clear() (or regs.clear()) all registers of the group (of all groups) read 0, whatever was done before.", "quantifier": "all prior histories", "why_tests_cant": "depends on hidden iterator position left by earlier loops; the tests' checks after clear() run zero times", "anchors": ["h800/registers.py:RegisterGroup.clear", "h800/registers.py:Registers.clear"]}
{"id": "C39", "title": "The 8x32 registers are independent cells over any history", "statement": "Starting from Registers(width), after any history of value/bit/range writes, per-register clears, iteration steps and lookups, each regs[k][i] reads what an 8x32 array of cells would.", "quantifier": "all histories of operations on all 256 registers", "why_tests_cant": "unbounded histories over 256 cells that can be reached through aliases (lookups, iteration, groups)", "anchors": ["h800/registers.py:Registers", "h800/registers.py:RegisterGroup", "h800/registers.py:Register"]}
{"id": "C40", "title": "Iterating registers visits all of them, every time", "statement": "Each loop over a RegisterGroup visits 32 registers in number order and each loop over Registers visits 8 groups.", "quantifier": "all histories of complete and broken-off loops", "why_tests_cant": "a second loop in a test runs zero times and so passes whatever it asserts", "anchors": ["h800/registers.py:RegisterGroup.__next__", "h800/registers.py:Registers.__next__"]}
{"id": "C41", "title": "regs[k]=g only accepts the eight group numbers", "statement": "Assigning a group raises ValueError unless the key is in 0..7, and len(regs) stays 8.", "quantifier": "all integers k", "why_tests_cant": "all integers outside 0..7 must be rejected, in every state", "anchors": ["h800/registers.py:Registers.__setitem__"]}
{"id": "C42", "title": "Masked instruction encoding", "statement": "Each maskable class called with sequence and mask (and no A/B/C) succeeds iff sequence in {0,1} and mask in 0..31, and its value is sequence*0o4000 + mask*0o100 + 0o40 + opcode = make_masked_opcode.", "quantifier": "the 15 maskable classes, all integer arguments", "why_tests_cant": "the rejections are over all integers, and the code must be right for all 64 accepted pairs in 15 classes", "anchors": ["h800/instruction.py:Instruction.__init__", "h800/instruction.py:Instruction._check", "h800/instructions.py:make_masked_opcode"]}
{"id": "C43", "title": "Unmasked instruction encoding", "statement": "Each maskable, general-unmasked, inherent-mask or scientific class called with sequence,a,b,c succeeds iff all four are in {0,1}, and its value is sequence*0o4000 + b23*0o1000 + a*0o400 + b*0o200 + c*0o100 + opcode = make_unmasked_opcode.", "quantifier": "all maskable, unmasked, inherent-mask and scientific classes, all integer arguments", "why_tests_cant": "the rejections are over all integers in four positions", "anchors": ["h800/instruction.py:GeneralUnmasked", "h800/instruction.py:Scientific", "h800/instructions.py:make_unmasked_opcode"]}
{"id": "C44", "title": "Peripheral, print and simulator encoding", "statement": "Peripheral classes accept exactly 0..63 and give paddr*0o100+0o40+op = make_peripheral_opcode; print classes accept exactly bits and give make_print_opcode; Simulator gives 7 + sequence*0o4000.", "quantifier": "all peripheral, print and simulator classes, all integer arguments", "why_tests_cant": "the rejections are over all integers", "anchors": ["h800/instruction.py:Peripheral", "h800/instruction.py:Simulator", "h800/instructions.py:make_peripheral_opcode", "h800/instructions.py:make_print_opcode"]}
{"id": "C45", "title": "Every constructed instruction is a 12-bit command code with its opcode in bits 8-12", "statement": "For any opcode record and any arguments for which the Instruction constructor succeeds, 0 <= value < 4096, bits 8-12 are the opcode's op, bit 1 is the sequence if given, and every other supplied field reads back from its documented bit positions.", "quantifier": "all opcode records and all argument combinations", "why_tests_cant": "each argument may be missing or any integer, and the opcode record is arbitrary; tests use some records with some arguments", "anchors": ["h800/instruction.py:Instruction"]}
{"id": "C46", "title": "Invalid instruction arguments always raise ValueError", "statement": "The Instruction constructor raises ValueError exactly when an argument is out of range or a forbidden combination (mask with non-maskable/A/B/C/paddr, paddr with any other) is supplied.", "quantifier": "all opcode records and argument combinations", "why_tests_cant": "six arguments, each missing, valid or invalid, for each kind of opcode: the combinations and the integers are unbounded", "anchors": ["h800/instruction.py:Instruction._check"]}
{"id": "C47", "title": "A peripheral address is only accepted by peripheral instructions", "statement": "Constructing an Instruction with a peripheral address and a non-peripheral opcode raises ValueError.", "quantifier": "all opcodes and addresses", "why_tests_cant": "a rejection over all non-peripheral opcodes and all addresses; no test passes an address to another instruction", "anchors": ["h800/instruction.py:Instruction._check", "h800/instruction.py:Peripheral"]}
{"id": "C48", "title": "Distinct instructions have distinct command codes", "statement": "Two constructible instructions of different mnemonics (other than PRA/PRD/PRO, which share codes by design) never have the same value.", "quantifier": "all pairs of mnemonics and arguments", "why_tests_cant": "test_machine_instructions leaves out the unmasked form of maskable instructions", "anchors": ["h800/instructions.py:OPCODES", "h800/instructions.py:print_instructions"]}
{"id": "C49", "title": "Different arguments give different codes", "statement": "For one mnemonic and form, the encoding is injective in its arguments.", "quantifier": "all pairs of argument lists of all mnemonics and forms", "why_tests_cant": "a statement about pairs of constructions; tests look at one instruction at a time", "anchors": ["h800/instruction.py:Instruction"]}
{"id": "C50", "title": "Mnemonic tables are disjoint and INSTRUCTIONS lists each mnemonic once", "statement": "No mnemonic occurs in two of the instruction tables and INSTRUCTIONS has no duplicates; the `m` field of every opcode equals its key; op, b7, b23 are within their bit widths.", "quantifier": "all entries of all instruction tables", "why_tests_cant": "a relation between separately maintained tables that no test compares", "anchors": ["h800/instructions.py:INSTRUCTIONS", "h800/instructions.py:OPCODES"]}
{"id": "C51", "title": "Every opcode names an existing instruction class", "statement": "For each entry of OPCODES the class name in its c field is a class defined in instructions.py that builds that opcode.", "quantifier": "all entries of OPCODES", "why_tests_cant": "relates the text of a table with the names of classes; the tests call the classes directly and never use the c field", "anchors": ["h800/instructions.py:OPCODES"]}
{"id": "C52", "title": "The opcode listing is sound, complete and sorted", "statement": "print_instructions lists each code once in increasing order; a code is listed iff some mnemonic's generator produces it, and the listed mnemonic is one of those; the output is byte for byte h800/opcodes.txt.", "quantifier": "all 4096 command codes", "why_tests_cant": "relates a generated file with the encoder for all 4096 codes; the tests do not run the listing", "anchors": ["h800/instructions.py:print_instructions", "h800/opcodes.txt"]}
{"id": "C53", "title": "Assembly-control pseudo-instructions can be constructed", "statement": "AssignTag, End, Equals, ... can be instantiated with (mnemonic, a, b, c).", "quantifier": "all pseudo-instruction classes and all arguments", "why_tests_cant": "no test constructs one; that none can be constructed is a statement about all arguments", "anchors": ["h800/instruction.py:PseudoInstruction", "h800/instruction.py:AssemblyControl"]}
{"id": "C54", "title": "Constants hold exactly the 48-bit integers", "statement": "Each constant class (ALF, DEC, ...) raises ValueError iff data is outside 0..2^48-1, otherwise value is data.", "quantifier": "all constant classes, all integers", "why_tests_cant": "2^48 accepted values and infinitely many rejected ones", "anchors": ["h800/instruction.py:Constant"]}
{"id": "C55", "title": "Assembled words decode to their instruction", "statement": "For any constructible instruction i and 12-bit addresses, InstructionWord(i.value,a,b,c) has command i.value, and the instruction's fields can be recovered from the 48-bit value.", "quantifier": "all constructible instructions and all 12-bit addresses", "why_tests_cant": "the product of all instructions and 2^36 address triples", "anchors": ["h800/word.py:InstructionWord", "h800/instruction.py:Instruction"]}
{"id": "C96", "title": "Every encoding is the documented bit diagram", "statement": "For every instruction class, the value of a successfully constructed instruction is the 12-bit diagram printed for its mnemonic in the table at the top of instructions.py (s, mask, a, b, c and peripheral-address columns filled in, x columns zero), for the masked, unmasked, print, peripheral, simulator (direct/indexed) and Proceed forms.", "quantifier": "all classes of the table, all accepted arguments", "why_tests_cant": "80 diagrams times all operand values; nothing compares the table with the encoder", "anchors": ["h800/instructions.py:OPCODES", "h800/instruction.py:Instruction.__init__"]}
{"id": "C56", "title": "Card fields partition the card columns", "statement": "For a non-comment line and any strictly increasing field list starting at column 1 and staying within the card width, the raw fields concatenate to the first `width` characters of the line, and field k consists of columns fields[k]..fields[k+1]-1.", "quantifier": "all lines, widths, layouts", "why_tests_cant": "lines, widths and layouts are all unbounded; tests use the default layout on a few lines", "anchors": ["h800/punchcard.py:PunchCard.__init__"]}
{"id": "C57", "title": "Stripped fields and record mirror the raw fields", "statement": "strippedFields[k] is fields[k] without surrounding white space, or None if blank; record maps each field name to it, plus linenum iff nonzero.", "quantifier": "all lines, layouts, names", "why_tests_cant": "any text can stand in any field, blanks of all kinds included", "anchors": ["h800/punchcard.py:PunchCard.__init__", "h800/punchcard.py:PunchCard.record"]}
{"id": "C58", "title": "Line terminators do not matter to the record", "statement": "A card made from line+'\\n' has the same record, stripped fields and line as the card made from line.", "quantifier": "all newline-free lines, both card classes", "why_tests_cant": "holds for every line, whatever its length; the terminator could become part of the last field", "anchors": ["h800/punchcard.py:PunchCard", "h800/arguscard.py:Card"]}
{"id": "C59", "title": "Comment cards carry no record", "statement": "PunchCard of a line starting with '#' is a comment: comment returns the line, and fields/strippedFields/record raise AttributeError; ARGUS Card cannot be constructed from such a line.", "quantifier": "all lines that begin with '#'", "why_tests_cant": "universal over texts, and the failure of the ARGUS class on such lines is not tested", "anchors": ["h800/punchcard.py:PunchCard.isComment", "h800/arguscard.py:Card.__init__"]}
{"id": "C60", "title": "Remark cards keep the whole remark text", "statement": "For an ARGUS card with P, R or L in column 1, remarks is the text from column 9 to the end of the line, stripped.", "quantifier": "all lines with P, R or L in column 1", "why_tests_cant": "the text is arbitrary; the missing column shows only if it is not blank", "anchors": ["h800/arguscard.py:Card.__init__"]}
{"id": "C61", "title": "Remark cards have no label, operation or operands", "statement": "For an ARGUS card with P, R or L in column 1: label, operation, instruction, operands and misc are None; lognum, column1 and column8 are unaffected. On all other cards these are the stripped fields.", "quantifier": "all lines, with any letter in column 1", "why_tests_cant": "universal over the texts of ten fields", "anchors": ["h800/arguscard.py:Card.__init__"]}
{"id": "C62", "title": "instruction is the operation up to the first comma", "statement": "card.instruction is None iff operation is None; otherwise the operation text before its first comma, stripped.", "quantifier": "all lines and layouts", "why_tests_cant": "the text of the operation is arbitrary: several commas, blanks around them, none at all", "anchors": ["h800/arguscard.py:Card.instruction"]}
{"id": "C63", "title": "A deck built from lines has one card per non-comment line", "statement": "Deck(lines).cards are the cards of the lines not starting with '#', in order, each with its 1-based position in lines; fields, strippedFields and records are parallel to cards.", "quantifier": "all lists of lines", "why_tests_cant": "the numbering of the cards depends on all comment lines before them, in lists of any length", "anchors": ["h800/punchcard.py:Deck.__init__"]}
{"id": "C64", "title": "A deck built from a file is the in-order expansion of its includes", "statement": "If reading succeeds, the cards are the file's lines in order, '#' lines dropped, each '$' line replaced by the expansion of the named file; every card carries the name and 1-based line number of the file it came from. With an acyclic, complete include structure reading succeeds.", "quantifier": "all file systems and include trees", "why_tests_cant": "include trees have arbitrary width and depth, and the order of cards depends on all of them", "anchors": ["h800/punchcard.py:Deck._readSource"]}
{"id": "C65", "title": "Reading a source file always terminates", "statement": "Deck(file=f) terminates with a deck or an error message for every file system, including cyclic includes.", "quantifier": "all file systems", "why_tests_cant": "cycles of includes of any length; a test of a cycle would have to wait for the recursion limit", "anchors": ["h800/punchcard.py:Deck._readSource"]}
{"id": "C66", "title": "Missing files stop the run", "statement": "A missing source file, or a missing include reached during reading, exits; no deck is produced.", "quantifier": "all file systems", "why_tests_cant": "the missing include can be at any position in any nesting, after any number of cards", "anchors": ["h800/punchcard.py:Deck._readSource"]}
{"id": "C67", "title": "File mode and line mode agree", "statement": "For a file without '$' lines, Deck(file=f) and Deck(lines of f) have the same records, fields and cards up to the file name.", "quantifier": "all contents of files without '$' lines", "why_tests_cant": "contents are arbitrary: line ends, blank lines, a missing last newline", "anchors": ["h800/punchcard.py:Deck"]}
{"id": "C68", "title": "The log section is that of the first L card", "statement": "log_section / log_section_col8 come from the first card with L in column 1 (columns 9-81 stripped, column 8), None if there is no such card.", "quantifier": "all decks", "why_tests_cant": "depends on the order of all cards of a deck of any size", "anchors": ["h800/arguscard.py:Deck.__init__"]}
{"id": "C69", "title": "str(deck) reproduces the card lines", "statement": "str(deck) is the cards' lines joined by newlines.", "quantifier": "all decks", "why_tests_cant": "any number of cards with any text", "anchors": ["h800/punchcard.py:Deck.__str__"]}
{"id": "C70", "title": "SymbolTable keeps the first definition", "statement": "After any history of add calls, lookup(name) is the entry of the first add with that non-empty name (None if there was none), getNumSymbols counts the distinct names.", "quantifier": "all histories", "why_tests_cant": "unbounded histories of additions with repeated names", "anchors": ["h800/symbol_table.py:SymbolTable.add", "h800/symbol_table.py:SymbolTable.lookup"]}
{"id": "C71", "title": "undefines lists exactly the symbols added without a value", "statement": "After any history of add/resolve/prune/lookup calls, undefines are the names whose first add had value None, each once, in order of definition.", "quantifier": "all histories", "why_tests_cant": "unbounded histories; the list is changed by four different methods", "anchors": ["h800/symbol_table.py:SymbolTable.undefines"]}
{"id": "C72", "title": "SymbolTable.update changes a defined symbol", "statement": "update(name, value, symtype) on a defined symbol stores the new value.", "quantifier": "all tables and values", "why_tests_cant": "no test calls update on a defined name; that it never stores the value is a statement about all tables and values", "anchors": ["h800/symbol_table.py:SymbolTable.update", "h800/symbol_table.py:SymbolTableEntry.value"]}
{"id": "C73", "title": "resolve terminates and keeps the table", "statement": "resolve(maxPasses) always terminates, after at most maxPasses passes, never touches the symbol entries; in every table reached through add it stops after one pass reporting the number of undefined symbols.", "quantifier": "all histories and maxPasses", "why_tests_cant": "termination for every table and every limit; no test resolves a table", "anchors": ["h800/symbol_table.py:SymbolTable.resolve"]}
{"id": "C74", "title": "pruneUndefines removes every defined symbol from the undefined list", "statement": "After pruneUndefines no symbol with a value remains in undefines (and no other symbol was removed).", "quantifier": "all tables", "why_tests_cant": "list mutation while iterating skips elements only for adjacent entries", "anchors": ["h800/symbol_table.py:SymbolTable.pruneUndefines"]}
{"id": "C75", "title": "Entry kinds are exclusive", "statement": "No SymbolTableEntry is ever both absolute and complex (isMultiple is always False); isValid iff a value was given.", "quantifier": "all constructor arguments", "why_tests_cant": "every combination of type and value, None included", "anchors": ["h800/symbol_table.py:SymbolTableEntry"]}
{"id": "C76", "title": "buildSymbolTable records every well-formed label", "statement": "After building a file whose segment name is not simple or complex (into a table without such segments, e.g. one built from such files), each non-'*' card with a well-formed label and an operation is found in the table under its tag, the file's segment, the current subsegment and its kind (complex for ASSIGN, simple otherwise); the entry stored is that of the last such card.", "quantifier": "all decks and prior tables", "why_tests_cant": "the entry depends on all cards before and after it, in decks of any size and with any table passed in", "anchors": ["h800/symbol_table.py:buildSymbolTable"]}
{"id": "C77", "title": "The error count counts exactly the ill-formed labels", "statement": "For a segment name other than simple/complex, the returned error count is the number of labelled non-'*' cards whose label has lower-case letters, more than one comma, an unknown or unsupported prefix, or which have no operation.", "quantifier": "all decks", "why_tests_cant": "the count sums over decks of any size, and each label can be wrong in several ways at once", "anchors": ["h800/symbol_table.py:buildSymbolTable"]}
{"id": "C78", "title": "Multiply-defined symbols are reported", "statement": "If two cards of the same subsegment define the same tag with the same kind (and are not equivalent EQUALS), the error count is positive.", "quantifier": "all decks and tables passed in", "why_tests_cant": "no test defines a symbol twice; the claim is about all pairs of cards in a deck", "anchors": ["h800/symbol_table.py:buildSymbolTable"]}
{"id": "C79", "title": "Building never loses or alters unrelated definitions", "statement": "Definitions for other tags, segments, subsegments or kinds in the table passed in are unchanged by building another file.", "quantifier": "all tables and decks", "why_tests_cant": "a frame property over everything already in an arbitrary table", "anchors": ["h800/symbol_table.py:buildSymbolTable"]}
{"id": "C80", "title": "Subsegment tracking", "statement": "Every definition in the table for the file's segment was there before or comes from the last card defining it, and the subsegment it is stored under is determined by the last non-'*' SETLOC card at or before it: the text after its first comma up to the next, '0' if none, '1' before any SETLOC.", "quantifier": "all decks and tables passed in; where a symbol table is built, of files whose names do not begin with simple. or complex.", "why_tests_cant": "depends on the position of each card relative to all SETLOC cards before it", "anchors": ["h800/symbol_table.py:buildSymbolTable"]}
{"id": "C81", "title": "checkSymbolTable reports exactly the complex-only symbols", "statement": "With complexOnlyError it returns, sorted, exactly the symbols having a complex but no simple definition; without it, none.", "quantifier": "all tables", "why_tests_cant": "tables with any number of symbols, segments and subsegments", "anchors": ["h800/symbol_table.py:checkSymbolTable"]}
{"id": "C82", "title": "getAbsoluteSymbols lists every symbol with a simple definition", "statement": "It returns, sorted and without duplicates, exactly the symbols that have a simple definition in some segment.", "quantifier": "all tables", "why_tests_cant": "the flag that is never reset shows only with several symbols of several segments", "anchors": ["h800/symbol_table.py:getAbsoluteSymbols"]}
{"id": "C83", "title": "findSymbolDef matching", "statement": "Exact search returns the symbol's definitions or None; begin/end search returns, sorted, exactly the symbols having that prefix/suffix; fuzzy search only proposes symbols with a simple definition.", "quantifier": "all tables and names", "why_tests_cant": "all tables and texts, including the empty text; order and completeness of the matches are universal statements", "anchors": ["h800/symbol_table.py:findSymbolDef"]}
{"id": "C84", "title": "buildSymbolTable never aborts", "statement": "For every readable deck buildSymbolTable returns a table and an error count.", "quantifier": "all decks and file names", "why_tests_cant": "the crash depends on the name of the file (simple. or complex.) and on a repeated symbol together", "anchors": ["h800/symbol_table.py:buildSymbolTable"]}
{"id": "C97", "title": "Printed symbol tables are complete and ordered", "statement": "After any history printTable prints every defined symbol's entry exactly once in ascending name order and then the entries of the undefined ones, if any; printUndefs prints their number and their entries.", "quantifier": "all histories of additions", "why_tests_cant": "order and completeness of the output after unbounded histories", "anchors": ["h800/symbol_table.py:SymbolTable.printTable", "h800/symbol_table.py:SymbolTable.printUndefs"]}
{"id": "C85", "title": "genlines prints equally spaced, equally wide line numbers", "statement": "For step >= 1, the printed numbers are start, start+step, ..., each zero-filled to the common width in columns startcol.., and every printed line has length endcol+1 when the number fits.", "quantifier": "all starts, ends, steps, columns and numbers of digits", "why_tests_cant": "the width of each printed line depends on five numbers; no test runs the tool", "anchors": ["tools/genlines.py:main"]}
{"id": "C86", "title": "genlines never prints a number beyond end", "statement": "No printed number exceeds `end`.", "quantifier": "all starts, ends and steps", "why_tests_cant": "fails only when the step does not divide the span", "anchors": ["tools/genlines.py:main"]}
{"id": "C87", "title": "check-instructions accounts for every instruction card", "statement": "instruction cards = skipped '*' cards + invalid cards + the sum of the per-mnemonic counts; errors = invalid cards; the --invalid option never changes the error count.", "quantifier": "all decks and options", "why_tests_cant": "an accounting identity over decks of any size", "anchors": ["tools/check-instructions.py:main"]}
{"id": "C88", "title": "list-instructions prints exactly the matching cards", "statement": "With opcode X it prints the non-'*' cards whose operation (blanks removed) is X, X with a mask when X has no comma, or begins with X when X ends in a comma, in order.", "quantifier": "all decks and opcodes", "why_tests_cant": "matching depends on commas and blanks in both texts; completeness is about every card", "anchors": ["tools/list-instructions.py:main"]}
{"id": "C89", "title": "parse reports the total number of errors", "statement": "The error total printed by parse.py is the sum of the symbol errors of all files and the invalid instructions.", "quantifier": "all lists of files; where a symbol table is built, of files whose names do not begin with simple. or complex.", "why_tests_cant": "needs at least two files of which an earlier one has errors", "anchors": ["tools/parse.py:main"]}
{"id": "C90", "title": "listing writes one line per card to a file derived from the source name", "statement": "The listing has exactly one line per card in order, and different sources get different listing files.", "quantifier": "all sources and file names", "why_tests_cant": "two names can be mapped to one listing file; the number of lines is unbounded", "anchors": ["tools/listing.py:main"]}
{"id": "C91", "title": "genpages appends one numbered block per page", "statement": "The appended text has one L line and one block per page of the range, with page numbers start..end and own page numbers 1..n. It fails exactly when the file has no section header or no pages, the range is empty, or a header or page line is malformed.", "quantifier": "all contents of the file", "why_tests_cant": "all page ranges, and every way the file can be malformed", "anchors": ["tools/genpages.py:main"]}
{"id": "C92", "title": "CHARSET covers all six-bit codes", "statement": "CHARSET has exactly the keys 0..63; digits and letters are in order; only the blank is the image of more than one code.", "quantifier": "all 64 codes and all other integers", "why_tests_cant": "a finite table, but nothing checks it", "anchors": ["h800/charset.py:CHARSET"]}
{"id": "C93", "title": "Context.save then load restores the assembler position", "statement": "Loading a record just saved restores linenum, global_linenum, code, srcline, loc, coloc, bank and messages, and touches nothing else; reset clears position but keeps error counts.", "quantifier": "all contexts and records, whatever attributes have been set", "why_tests_cant": "a frame property over all attributes and all other objects", "anchors": ["h800/context.py:Context"]}
{"id": "C94", "title": "Context can be created", "statement": "Context(listfile, binfile, options) returns an object.", "quantifier": "all arguments", "why_tests_cant": "no test makes a Context; that none can be made is a statement about all arguments", "anchors": ["h800/context.py:Context.__init__"]}
{"id": "C95", "title": "Assembler.resolve terminates within maxPasses", "statement": "resolve stops after at most maxPasses passes, reports success only when no parseable record is incomplete.", "quantifier": "all lists of records and all limits", "why_tests_cant": "the number of passes depends on the behaviour of every record in every pass", "anchors": ["h800/assembler.py:Assembler.resolve"]}
{"id": "C98", "title": "The section card appended by genpages reads back unchanged", "statement": "Reading genpages' output finds the same section name and the same column 8 as the source it was made from.", "quantifier": "all sources genpages accepts", "why_tests_cant": "needs a section card with a blank in column 8, and then a second run over the output", "anchors": ["tools/genpages.py:main"]}
{"id": "C99", "title": "check-instructions --count reports the frequency of every mnemonic", "statement": "For every deck --count prints the number of source lines, the total and one row per known mnemonic with the number of instruction cards that carry it; --sort orders the rows by falling count, otherwise they are in name order; --unused lists exactly the mnemonics with count 0.", "quantifier": "all readable file lists, all options", "why_tests_cant": "all decks, including one without instructions, for which the rates cannot be computed", "anchors": ["tools/check-instructions.py:main"]}
{"id": "C100", "title": "check-symbols reports the total number of errors", "statement": "The total is the sum over the files of their ill-formed labels plus the number of symbols listed, and with --complex-only the listed symbols are exactly those with a complex and no simple definition, each once, in ascending order.", "quantifier": "all readable file lists whose names do not begin with simple. or complex.", "why_tests_cant": "needs several files with errors in each; the total depends on every card", "anchors": ["tools/check-symbols.py:main"]}
{"id": "C101", "title": "find-symbols finds partial matches by default", "statement": "Without options find-symbols finds the symbols that contain the text (--exact asks for an exact match instead); --begin and --end find exactly the symbols that begin or end with it; conflicting options are refused.", "quantifier": "all readable file lists and all texts; where a symbol table is built, of files whose names do not begin with simple. or complex.", "why_tests_cant": "the default depends on how three options are combined; completeness of the matches is about all tables", "anchors": ["tools/find-symbols.py:main"]}
{"id": "C102", "title": "list-symbols prints every definition exactly once, in order", "statement": "The listing has one line for each definition in force (symbol, segment, subsegment, kind), ordered by these four names, under one heading per symbol, per segment of a symbol and per subsegment of a segment.", "quantifier": "all readable file lists whose names do not begin with simple. or complex.", "why_tests_cant": "unbounded tables with four levels of nesting", "anchors": ["tools/list-symbols.py:main"]}
{"id": "C103", "title": "Context.save works on every context", "statement": "After reset (or on a context that was never loaded) save stores the position into any record without raising.", "quantifier": "all contexts and records", "why_tests_cant": "needs a context on which coloc was never set, which no test makes", "anchors": ["h800/context.py:Context.save", "h800/context.py:Context.reset"]}
{"id": "C104", "title": "setLoc and setCoLoc move the location counter", "statement": "setLoc(address) sets loc and setCoLoc(address) sets coloc to a valid address unless the context is reparsing, and changes nothing else.", "quantifier": "all contexts and addresses", "why_tests_cant": "a frame property over all attributes; the second counter is easily taken for the first", "anchors": ["h800/context.py:Context.setLoc", "h800/context.py:Context.setCoLoc"]}
{"id": "C105", "title": "A saved record is a snapshot", "statement": "What the context does after save does not change the saved record.", "quantifier": "all contexts, records and later actions", "why_tests_cant": "needs aliasing between context and record and a later action of any kind", "anchors": ["h800/context.py:Context.save"]}
{"id": "C106", "title": "createSymbolTable accumulates the definitions of several files", "statement": "After createSymbolTable for a list of files the table holds exactly the definitions in force of all of them, and nothing else of the assembler changed.", "quantifier": "all readable file lists whose names do not begin with simple. or complex.", "why_tests_cant": "unbounded lists of files whose definitions interact", "anchors": ["h800/assembler.py:Assembler.createSymbolTable"]}
{"id": "C107", "title": "assemble leaves symbols, records and errors alone", "statement": "assemble(srcfile) returns exactly when the file can be read and changes nothing but the source name and the line number.", "quantifier": "all assemblers and source files", "why_tests_cant": "a frame property over everything an assembler holds", "anchors": ["h800/assembler.py:Assembler.assemble"]}
{"id": "C108", "title": "A field can be iterated like a sequence", "statement": "list(field), 'for bit in field', 'x in field' and reversed(field) go over the bits of a BitField (or a Register) in index order and end normally.", "quantifier": "all fields of every width, numbering, order and value", "why_tests_cant": "the outcome depends on the layout and on every bit; a test fixes one field", "anchors": ["h800/bitfield.py:BitField.__getitem__", "h800/bitfield.py:BitField.__len__", "h800/registers.py:Register.__getitem__"]}
{"id": "C109", "title": "Registers and memory print as octal numerals of their values", "statement": "repr of a register is 0o and its value in octal with at least six characters (a minus sign first, should the value be negative) and no superfluous leading zero; repr of a bank is the 2048 cells in address order, sixteen digits each, followed by blanks; repr of a group is its 32 registers in number order; repr of the register file is one line [k] per group. The text determines the values.", "quantifier": "all registers, all banks and register files after any history of calls", "why_tests_cant": "all values and histories; the text of a whole bank is 38912 characters", "anchors": ["h800/registers.py:Register.__repr__", "h800/registers.py:RegisterGroup.__repr__", "h800/registers.py:Registers.__repr__", "h800/memory.py:MemoryBank.__repr__"]}
{"id": "C110", "title": "len, int and truth value of a field", "statement": "len(field) is its width, int(field) and its use as an index are its value, and bool(field) tells whether the value is non-zero.", "quantifier": "all fields after any history of calls", "why_tests_cant": "all values and histories; int and bool are used implicitly all over the code", "anchors": ["h800/bitfield.py:BitField.__len__", "h800/bitfield.py:BitField.__int__", "h800/bitfield.py:BitField.__index__"]}
{"id": "C111", "title": "Memory modules can be iterated and banks searched", "statement": "list(module) gives its banks in order; 'v in bank' tells whether a cell of the bank holds v and leaves the bank as it was; reversed works on modules, banks and register groups.", "quantifier": "all modules, banks and groups after any history of calls", "why_tests_cant": "unbounded histories; depends on the hidden iteration cursor", "anchors": ["h800/memory.py:MemoryModule.__getitem__", "h800/memory.py:MemoryBank.__next__", "h800/registers.py:RegisterGroup.__getitem__"]}
{"id": "C112", "title": "buildSymbolTable says what is wrong with every faulty label", "statement": "For every card with a faulty label buildSymbolTable prints, in card order, one error line that names the symbol and the reason that applies (case, too many commas, tag prefix, unsupported prefix, no operation), and none for other cards; the number of error lines is the returned error count.", "quantifier": "all source files, tables and label texts; the wording for file names that do not begin with simple. or complex.", "why_tests_cant": "unbounded card lists and label texts; the reasons overlap and their priority matters", "anchors": ["h800/symbol_table.py:buildSymbolTable"]}
{"id": "C113", "title": "A failing buildSymbolTable leaves the caller's table alone", "statement": "When buildSymbolTable (or Assembler.createSymbolTable) raises an exception the symbol table is what it was before the call.", "quantifier": "all source files and tables", "why_tests_cant": "needs a failure in the middle of a file; unbounded tables", "anchors": ["h800/symbol_table.py:buildSymbolTable", "h800/assembler.py:Assembler.createSymbolTable"]}
{"id": "C114", "title": "The check-symbols report is complete", "statement": "check-symbols prints the error lines of each file followed by their number, then one line for each complex-only symbol, then for each of these symbols the suggestions (symbols with a simple definition) or that there are none, then their number, and with more than one file the total of all error lines.", "quantifier": "all readable file lists whose names do not begin with simple. or complex., every behaviour of the fuzzy matcher", "why_tests_cant": "needs several files; the counts depend on all cards", "anchors": ["tools/check-symbols.py:main", "h800/symbol_table.py:checkSymbolTable", "h800/symbol_table.py:findSymbolDef"]}
{"id": "C115", "title": "str(context) describes the context", "statement": "str(context) returns a text for every context.", "quantifier": "all contexts, whatever attributes have been set", "why_tests_cant": "depends on which attributes exist at the time of the call", "anchors": ["h800/context.py:Context.__str__"]}
{"id": "C116", "title": "find-symbols says whether it found the symbol", "statement": "find-symbols prints the definitions or matching names it found, and an error line when there are none.", "quantifier": "all readable file lists whose names do not begin with simple. or complex., all texts and options", "why_tests_cant": "the answer depends on the whole table and on three options; an empty answer is printed like a found one", "anchors": ["tools/find-symbols.py:main", "h800/symbol_table.py:findSymbolDef"]}
{"id": "C117", "title": "--verbose changes nothing but the progress messages", "statement": "Running a tool (or building a deck) with verbose gives the same result, the same files written and the same output with some progress messages added: Reading FILE..., Skipping meta-comment, Skipping card with * in column 8 (with the card) and Wrote listing file. No other line appears, disappears or moves, also when the run fails.", "quantifier": "all tools, options, file systems and file lists", "why_tests_cant": "a relation between two runs over every input; a test compares a few outputs", "anchors": ["h800/punchcard.py:Deck._readSource", "tools/check-instructions.py:main", "tools/list-instructions.py:main", "tools/parse.py:main", "tools/check-symbols.py:main", "tools/find-symbols.py:main", "tools/list-symbols.py:main", "tools/listing.py:main"]}
{"id": "C118", "title": "A missing source or include file is named", "statement": "Reading a source file from which a missing file is reached by $ lines ends the program with one message on stderr that names the first file (in reading order) that does not exist; without verbose nothing else is printed, and with verbose exactly the progress messages up to that point. The program ends in this way in no other case.", "quantifier": "all file systems, include trees and source files", "why_tests_cant": "unbounded include trees; the file named depends on reading order", "anchors": ["h800/punchcard.py:Deck._readSource"]}
{"id": "C119", "title": "The progress messages describe what was read", "statement": "With verbose, reading a source prints one Reading line for the file and for every included file when it is opened, and one Skipping meta-comment line with file and line number for every # line, in reading order; nothing is printed without verbose.", "quantifier": "all readable sources, all line lists", "why_tests_cant": "unbounded include trees and files", "anchors": ["h800/punchcard.py:Deck._readSource", "h800/punchcard.py:Deck.__init__"]}
{"id": "C120", "title": "The output of parse is determined by the cards", "statement": "parse prints for each file the faults of its labels and their number, then file by file and card by card each instruction card when debugging, a note for each card with an asterisk when verbose, and the error lines for each unknown mnemonic, then the number of cards and the number of errors: those of the last file's table plus the unknown mnemonics. If a file is missing, the output is that of the files before it, and the message.", "quantifier": "all file lists whose names do not begin with simple. or complex., all options", "why_tests_cant": "the whole transcript for unbounded inputs", "anchors": ["tools/parse.py:main"]}
{"id": "C121", "title": "The output of check-instructions is determined by the cards", "statement": "check-instructions prints, file by file and card by card, each instruction card when asked, a note for each card with an asterisk when verbose and the error lines for each unknown mnemonic; then, when asked, the number of cards, the total and one line per mnemonic with its frequency, and the unused mnemonics in order; then the number of errors. If a file is missing, the output is that of the files before it, and the message; if frequencies are asked for without the unused mnemonics and no card has an instruction, it ends after the total with ZeroDivisionError.", "quantifier": "all file lists and options", "why_tests_cant": "the whole transcript for unbounded inputs", "anchors": ["tools/check-instructions.py:main"]}
{"id": "C122", "title": "Making an instruction prints nothing", "statement": "Calling an instruction class (BinaryAdd(...), ReadForward(...), ...) makes an object and has no other effect.", "quantifier": "all instruction classes and all arguments, accepted or not", "why_tests_cant": "the unit tests ignore what is printed; the claim is about every construction", "anchors": ["h800/instruction.py:Instruction.__init__", "h800/instructions.py:BinaryAdd.__init__"]}
{"id": "C123", "title": "What a command line means", "statement": "The command line of a tool is understood exactly when every word before -- is an argument, a group of declared letters (-vd) or a declared name or unambiguous beginning of one (--verb); then the options turned on and the arguments are those of the words in order. It prints the help exactly when -h or --help (or an unambiguous beginning) is reached before anything wrong, and is a usage error in all other cases.", "quantifier": "all command lines and option tables", "why_tests_cant": "unbounded word lists; abbreviations and letter groups interact with every option declared", "anchors": ["tools/check-instructions.py:main", "tools/parse.py:main", "tools/find-symbols.py:main"]}
{"id": "C124", "title": "Options can stand anywhere", "statement": "Putting an option word at any place before -- in a command line adds exactly its options and changes nothing about the arguments; a command line without words that begin with a dash turns nothing on and passes all words as arguments, and -- passes everything after it.", "quantifier": "all command lines, positions and option tables", "why_tests_cant": "options may stand at any position among any number of words", "anchors": ["tools/check-instructions.py:main", "tools/parse.py:main"]}
{"id": "C125", "title": "A tool's options turn on what they are called after", "statement": "Each tool runs with exactly the switches whose options occur on its command line (in any spelling, order or number) and with the arguments in order; two command lines with the same options and arguments do the same.", "quantifier": "all tools, command lines and file systems", "why_tests_cant": "all spellings and orders of all options", "anchors": ["tools/check-instructions.py:main", "tools/check-symbols.py:main", "tools/find-symbols.py:main", "tools/list-instructions.py:main", "tools/list-symbols.py:main", "tools/listing.py:main", "tools/parse.py:main", "tools/genlines.py:main", "tools/genpages.py:main"]}
{"id": "C126", "title": "genlines accepts every step that range accepts", "statement": "genlines START END STEP prints START, START+STEP, ... for every non-zero step, also for a negative one.", "quantifier": "all starts, ends and steps, written as options", "why_tests_cant": "needs the option parser together with all integers, negative steps included", "anchors": ["tools/genlines.py:main"]}
{"id": "C127", "title": "genpages only appends, and only on success", "statement": "A run of genpages either succeeds and appends to the named file, keeping its old content and all other files, or fails and changes no file.", "quantifier": "all file systems and argument lists", "why_tests_cant": "success depends on the whole content of the file; a failing run must leave every file alone", "anchors": ["tools/genpages.py:main"]}
{"id": "C128", "title": "Which numbers the tools accept", "statement": "A number on the command line of genlines, or in the page lines read by genpages, is a decimal literal: optional white space, an optional sign, digits with single underscores allowed between digits, optional white space. It stands for the number written. Every other text raises ValueError.", "quantifier": "all texts", "why_tests_cant": "all texts; signs, blanks and underscores combine freely", "anchors": ["tools/genlines.py:main", "tools/genpages.py:main"]}
{"id": "C129", "title": "genlines for every argument list", "statement": "genlines START END [STEP [FIRST [LAST]]] with numbers of at most six characters and a non-zero step prints exactly START, START+STEP, ... as long as the number lies before END+STEP (in the direction of the step), each in its columns and zero-padded to at least four digits or the length of END; with fewer than two arguments or longer numbers it exits with the usage, with a text that is not a number or step 0 it raises ValueError, and nothing else can happen.", "quantifier": "all argument lists of the tool", "why_tests_cant": "numbers of any size and sign, in all five positions", "anchors": ["tools/genlines.py:main"]}
{"id": "C130", "title": "Wrong use ends the program before anything is read", "statement": "A tool called without the arguments it needs, find-symbols with two kinds of match at once, and list-instructions with an unknown mnemonic exit at once, print nothing on the way, and change no file, whatever options are given.", "quantifier": "all command lines and file systems", "why_tests_cant": "all spellings and orders of the options", "anchors": ["tools/check-instructions.py:main", "tools/check-symbols.py:main", "tools/find-symbols.py:main", "tools/list-instructions.py:main", "tools/list-symbols.py:main", "tools/listing.py:main", "tools/parse.py:main", "tools/genlines.py:main", "tools/genpages.py:main"]}
{"id": "C131", "title": "Without --verbose a tool prints its report and nothing else", "statement": "A run of a tool without --verbose whose files all exist prints the faults of the labels, if the tool reads labels, and exactly the lines of its report on stdout, in order; if the report cannot be made, the run ends with the same exception.", "quantifier": "all file lists, options and file systems", "why_tests_cant": "unbounded inputs; every message of the code has to be excluded", "anchors": ["tools/check-instructions.py:main", "tools/check-symbols.py:main", "tools/find-symbols.py:main", "tools/list-instructions.py:main", "tools/list-symbols.py:main", "tools/listing.py:main", "tools/parse.py:main"]}
{"id": "C132", "title": "What a symbol table prints", "statement": "Any sequence of calls of add, update, lookup, pruneUndefines and resolve on a new SymbolTable prints exactly: one error line for each add of a name added before; for each pruning the number of undefined names and that none was removed; for each resolve with a positive limit either that all symbols are resolved or one attempt for each undefined name in order of addition and that there is no progress; and nothing else. On a table changed by hand pruning prints one line for each name it removes, in order, and their number.", "quantifier": "all sequences of calls, all tables", "why_tests_cant": "unbounded sequences of calls; the unit tests do not look at the output", "anchors": ["h800/symbol_table.py:SymbolTable.add", "h800/symbol_table.py:SymbolTable.pruneUndefines", "h800/symbol_table.py:SymbolTable.resolve"]}
{"id": "C133", "title": "Which input a deck uses", "statement": "A Deck given both lines and the name of a file is the deck of the file: the lines have no effect. An empty file name counts as no file: with lines the deck has the same cards, fields and records as without a file name, apart from the name of the file kept in the cards, and without lines the constructor raises TypeError instead of reporting that there is no input.", "quantifier": "all lines, file names, file systems, layouts and both card classes", "why_tests_cant": "unbounded inputs; the two arguments are only tested one at a time", "anchors": ["h800/punchcard.py:Deck.__init__", "h800/arguscard.py:Deck.__init__"]}
{"id": "C134", "title": "Running genpages again changes nothing", "statement": "A file that genpages has already annotated with its section card and page headings is not changed by running genpages on it again, however often.", "quantifier": "all file contents genpages accepts, any number of runs", "why_tests_cant": "the effect of one run is the input of the next; needs every content and every number of runs", "anchors": ["tools/genpages.py:main"]}
{"id": "C135", "title": "Every complaint about a symbol shows the definition it is about", "statement": "After each complaint buildSymbolTable prints the definition that the card would have made: its file, line, log number and tag type (None for a label with small letters, as the tag type is not known yet); for a multiply defined symbol it prints all definitions already in the same segment and subsegment before it, and the operation after it. The table and the error count do not depend on this output.", "quantifier": "all source files, tables and ways to show strings and cards; where a symbol table is built, of files whose names do not begin with simple. or complex.", "why_tests_cant": "the text depends on the whole table and on every way a label can be wrong; the unit tests do not look at the output", "anchors": ["h800/symbol_table.py:buildSymbolTable"]}
{"id": "C136", "title": "The classes for the forms of instructions check and encode their own arguments", "statement": "GeneralMasked, GeneralUnmasked, Scientific, Peripheral and Simulator accept, for every opcode description, exactly the arguments in range for their form (a mask only with a maskable opcode) and raise ValueError otherwise. The value of an accepted instruction has the sequence bit, mask or address bits, peripheral address and opcode of its form in the documented columns and zeros elsewhere.", "quantifier": "all opcode descriptions and all arguments, present or None", "why_tests_cant": "five classes times all opcode descriptions and arguments, including ones no table entry has", "anchors": ["h800/instruction.py:GeneralMasked.__init__", "h800/instruction.py:GeneralUnmasked.__init__", "h800/instruction.py:Peripheral.__init__", "h800/instruction.py:Simulator.__init__", "h800/instruction.py:Scientific.__init__"]}
{"id": "C137", "title": "The rates printed by check-instructions are correctly rounded", "statement": "In the table that check-instructions --count prints, the rate of each instruction is a number of percent with two decimals, right-aligned in six columns, and no such number is closer to its count divided by the total (for up to 2^35 instructions; beyond that the error exceeds half a hundredth by at most 1e-11 hundredths). A larger count never prints a smaller rate, no instruction prints 0.00 and all of them print 100.00.", "quantifier": "all sources, all options with --count, all counts and totals", "why_tests_cant": "the rate is computed with rounded floating-point operations and rounded again to two decimals; an error shows only for particular pairs of numbers, out of unboundedly many", "anchors": ["tools/check-instructions.py:main"]}
{"id": "C138", "title": "What list-instructions prints is determined by the cards", "statement": "With --verbose the tool reports how each file is read, and for each card with an operation and an asterisk in column 8 it says that the card is skipped and shows where it is and its text. Every other card whose operation matches the opcode asked for is printed, with its position if --details is given. Nothing else is printed, in the order of files and cards. If a file cannot be read, everything about the files before it has been printed, then the message about it. An unknown opcode prints nothing but the usage message.", "quantifier": "all sources, opcodes, options and lists of files, read completely or not", "why_tests_cant": "the output is a function of all cards of all files and their includes; tests can compare only the outputs of given files", "anchors": ["tools/list-instructions.py:main", "h800/punchcard.py:Deck._readSource"]}
{"id": "C139", "title": "Listings are written one after the other, each from the files as they are then", "statement": "For each file in turn, listing reads it (with the listings written before in place), writes the listing under the name with the extension replaced, one line per card, and changes no other file. With --verbose it reports how the file is read and then where the listing is; otherwise it prints nothing. When a file cannot be read it prints the message about it and stops, and the listings of the files before it stay.", "quantifier": "all file systems, all lists of files, including ones that include or overwrite listings", "why_tests_cant": "a listing written for one argument can be read again for a later one, so the result depends on the order of all arguments and on all contents", "anchors": ["tools/listing.py:main", "h800/punchcard.py:Deck._readSource"]}
{"id": "C140", "title": "What the symbol tools print is determined by the cards, with and without --verbose", "statement": "check-symbols, find-symbols (without --begin, --end and --fuzzy) and list-symbols first say for each file how it is read (with --verbose), then the complaints about it, each with the definition it is about, then (not list-symbols) their number. After that follow: for check-symbols the symbols with only complex definitions, the suggestions for them and the totals; for find-symbols the answer, or a message if the symbol is not defined; for list-symbols all definitions, sorted, and the number of errors if there were any. If a file cannot be read, the report about the files before it and the message about that file are all that is printed.", "quantifier": "all sources whose segments are not named like kinds of symbols, all lists of files, all options", "why_tests_cant": "the output depends on all cards of all files, on the order of the complaints, and on which files can be read; tests can compare only the outputs of given files", "anchors": ["tools/check-symbols.py:main", "tools/find-symbols.py:main", "tools/list-symbols.py:main", "h800/symbol_table.py:buildSymbolTable"]}
{"id": "C141", "title": "find-symbols prints the definitions of the symbol, or the names found", "statement": "Without --begin, --end and --fuzzy, find-symbols prints one line for a symbol that is defined: a dictionary with the segments in the order in which the files define the symbol, for each the subsegments in order, for each the kinds in order, with the last definition of that kind; nothing else is in it, and the text is determined by the cards. With --begin or --end it prints the sorted list of the defined names that begin or end with the symbol, and with --fuzzy the list of the matches that the matcher finds among the candidates; nothing is printed for an empty list.", "quantifier": "all sources whose segments are not named like kinds of symbols, all lists of files, all symbols, all matchers", "why_tests_cant": "the order of the definitions depends on all cards of all files; the repository has no test of the tool", "anchors": ["tools/find-symbols.py:main", "h800/symbol_table.py:findSymbolDef", "h800/symbol_table.py:buildSymbolTable"]}
{"id": "C142", "title": "A wrong command line is refused with its reason, and only that", "statement": "Every tool answers a wrong command line with exit status 2 and three lines on stderr (how to call it, an empty line, and the tool's name with the reason), having read and written nothing: an unknown letter or name, an ambiguous abbreviation (with the sorted candidates), a value for an option that takes none, no file, conflicting ways to match, an invalid opcode, numbers of more than six digits, a missing file, an unknown section or page numbers that decrease. The first wrong option counts, a request for help before it prints the help with status 0, and status 2 has no other cause. Reasons written by the tools keep the characters %prog. For every other command line the tool runs with exactly the options and arguments that were given.", "quantifier": "all nine tools, all command lines, all programme names, all file systems", "why_tests_cant": "the set of command lines is infinite; the repository has no tests of the tools", "anchors": ["tools/check-instructions.py:main", "tools/check-symbols.py:main", "tools/find-symbols.py:main", "tools/list-instructions.py:main", "tools/list-symbols.py:main", "tools/listing.py:main", "tools/parse.py:main", "tools/genlines.py:main", "tools/genpages.py:main"]}
{"id": "C143", "title": "The exit status tells whether errors were found", "statement": "A tool that finds errors in the sources ends with an exit status other than 0, and a tool that finds none with 0.", "quantifier": "all tools that read sources, all command lines that are not wrong, all file systems; where a symbol table is built, of files whose names do not begin with simple. or complex.", "why_tests_cant": "the status depends on all cards of all files; the repository has no tests of the tools", "anchors": ["tools/check-instructions.py:main", "tools/check-symbols.py:main", "tools/find-symbols.py:main", "tools/list-instructions.py:main", "tools/list-symbols.py:main", "tools/listing.py:main", "tools/parse.py:main"]}
{"id": "C144", "title": "Line ends do not matter", "statement": "A text file is read as the same lines whether they end with a line feed, a carriage return or both, and the last line may lack its end. Files that differ in their line ends only make every tool print the same lines and end with the same status; the files they leave behind have the same lines again, and genpages appends the same text to both.", "quantifier": "all texts; all tools, all command lines and all pairs of file systems, includes at any depth", "why_tests_cant": "line ends may be mixed in any order in any file that is included anywhere; the repository has files of one kind only", "anchors": ["h800/punchcard.py:Deck._readSource", "tools/genpages.py:main", "tools/listing.py:main", "tools/check-instructions.py:main", "tools/parse.py:main"]}
{"id": "C145", "title": "The exception tells what was wrong", "statement": "Calls on bit fields and registers that are refused raise ValueError for bits, ranges, values, names and numbers that do not exist or do not fit, TypeError only for a range with an end left out, and StopIteration only from next() after the last register or group. isRange accepts no value but 0 and 1. After any history of calls on a register file, the exception is that of the first thing on the way that is not there.", "quantifier": "all fields, layouts and keys; all histories of a register file", "why_tests_cant": "all histories and keys; errors come from five layers below the call, and a caller that catches ValueError relies on none of them leaking a KeyError", "anchors": ["h800/bitfield.py:BitField._checkRange", "h800/bitfield.py:BitField.isRange", "h800/bitfield.py:BitField.__setitem__", "h800/registers.py:Registers.__getitem__", "h800/registers.py:RegisterGroup.__getitem__", "h800/registers.py:RegisterGroup.__next__"]}
{"id": "C146", "title": "The order of the files does not matter to the report of check-instructions", "statement": "Given the same files in another order, check-instructions ends with the same report, line by line, frequencies, order of the rows, unused mnemonics and number of errors included, and with the same status; what is printed while the files are read is what each file gives, in the new order.", "quantifier": "all options, all lists of readable files, all permutations", "why_tests_cant": "all permutations of any number of files; a dictionary whose order depends on what was met first would break it", "anchors": ["tools/check-instructions.py:main"]}
{"id": "C147", "title": "check-instructions reports exactly the wrong mnemonics of the text", "statement": "Said of the text alone: take the lines of the files with the included files in place of their $ lines, without the # lines. The command check-instructions FILE... prints, in the order of the lines, one complaint of two lines for every line without an asterisk in column 8 and without P, R or L in column 1 whose columns 20-32, up to a comma, are not empty and not a mnemonic of the machine, naming the file and the number of the line where it stands and its text; then the number of complaints; nothing else. It ends with status 0 and changes no file. With --count the number of lines and the frequencies of all mnemonics of the machine, counted over the same lines, come in between, by descending frequency with --sort and by name without.", "quantifier": "all command lines, all file systems in which the sources and their includes exist, all texts, all depths of includes", "why_tests_cant": "The output depends on every line of every file through option parsing, include expansion, column slicing and the table; tests see some texts.", "anchors": ["tools/check-instructions.py:main", "h800/arguscard.py:Card.__init__", "h800/punchcard.py:Deck._readSource", "h800/instructions.py:INSTRUCTIONS"]}
{"id": "C148", "title": "list-instructions prints exactly the lines of the text with the operation", "statement": "Said of the text alone: list-instructions OPCODE FILE... with the mnemonic of OPCODE in the table prints, in order, the text of every line of the files and their includes without an asterisk in column 8 and without P, R or L in column 1 whose columns 20-32, without blanks, match the opcode, with the file and line number in front with --details, and nothing else; status 0, no file is changed.", "quantifier": "all command lines, opcodes, file systems and texts", "why_tests_cant": "As for check-instructions; tests see some texts.", "anchors": ["tools/list-instructions.py:main", "h800/arguscard.py:Card.__init__", "h800/punchcard.py:Deck._readSource"]}
{"id": "C149", "title": "listing writes exactly the lines of the text", "statement": "Said of the text alone: the command listing FILE prints nothing, ends with status 0 and leaves in the listing file one line per line of the source and its includes: the file padded to 64, the number padded to 6 and the text. Every other file is unchanged.", "quantifier": "all file systems in which the source and its includes exist, all texts", "why_tests_cant": "The content depends on every line of every included file; tests see some.", "anchors": ["tools/listing.py:main", "h800/punchcard.py:Deck._readSource"]}
{"id": "C150", "title": "The symbol table is exactly what the columns of the text define", "statement": "Said of the text alone: a line without an asterisk in column 8 and without P, R or L in column 1 defines the label in its columns 9-19 (blanks taken out, upper case, at most one comma and then a tag type B, F, S or Z before it) if its columns 20-32 are not blank: a complex definition for ASSIGN, otherwise a simple one, in the subsegment of the last SETLOC line up to that line, or 1. Building the table of a file gives for each label, subsegment and kind an entry exactly if a line defines it, made from the last such line: its file, its number, the log number in columns 2-7, the tag type and its text; all in the segment named after the file; and the number of errors is the number of lines without an asterisk whose label is malformed or stands without an operation.", "quantifier": "all file systems in which the source and its includes exist, all texts; segments not named simple or complex", "why_tests_cant": "The table depends on the whole text through columns, SETLOC history and overwriting; tests see some texts.", "anchors": ["h800/symbol_table.py:buildSymbolTable", "h800/arguscard.py:Card.__init__", "h800/punchcard.py:Deck._readSource"]}
{"id": "C151", "title": "parse counts the lines and the mistakes of the text", "statement": "Said of the text alone: the command parse FILE ends its output with the number of lines of the source and its includes and with the number of mistakes, which is the number of lines with a label mistake plus the number of lines with an unknown mnemonic; status 0, no file is changed.", "quantifier": "all file systems in which the source and its includes exist, all texts; one file; where a symbol table is built, of files whose names do not begin with simple. or complex.", "why_tests_cant": "The counts depend on every line; tests see some texts.", "anchors": ["tools/parse.py:main", "h800/symbol_table.py:buildSymbolTable"]}
{"id": "C152", "title": "The attributes of a card are the columns of its line", "statement": "On the 120-column ARGUS form, for a line of code column1, lognum, column8, label and location, operation, operand1 and addressa, operand2 and addressb, operand3 and addressc, sequence and remarks are the texts of columns 1, 2-7, 8, 9-19, 20-32, 33-46, 47-60, 61-75, 76-80 and 81-120 without surrounding white space, None if blank, and instruction is the operation up to a comma. For a line with P, R or L in column 1 the attributes of code are None and remarks is the text from column 10 on. There are no other such attributes, and parse() changes nothing.", "quantifier": "all lines, file names and line numbers", "why_tests_cant": "Columns interact with trimming, short lines and commas; tests see some lines.", "anchors": ["h800/arguscard.py:Card", "h800/punchcard.py:PunchCard.__init__"]}
{"id": "C153", "title": "A step in a subscript is honoured or refused", "statement": "x[a:b:t] of a field, a register, a bank or a module selects every t-th position of a..b, or is refused with an exception; an assignment leaves the other positions alone.", "quantifier": "all fields, banks, ranges, steps and values", "why_tests_cant": "All three numbers of a slice matter; tests use no steps.", "anchors": ["h800/bitfield.py:BitField.__getitem__", "h800/bitfield.py:BitField.__setitem__", "h800/memory.py:MemoryBank.__setitem__", "h800/registers.py:Register.__getitem__", "h800/registers.py:RegisterGroup.__getitem__"]}
{"id": "C154", "title": "The symbol tools report what the source text defines", "statement": "Given the text of the sources (files, with their includes put in place, line by line), list-symbols shows one row for each symbol, segment, subsegment and kind that some line defines: that of the latest definition in the last of the files of that segment, with the file and line it stands in and its text, sorted, under the names of the symbol, the segment and the subsegment. check-symbols -c names, in order, the labels that an ASSIGN line defines and no other line does. find-symbols shows a definition exactly when a line defines the label, and with -b or -e the sorted list of the labels some line defines that begin or end with the given text. Before that each tool complains of each line whose label is faulty, in the order of the lines, with what is wrong, the file and the number of the line, and counts the complaints.", "quantifier": "all sources (any number of files, lines and includes, any text), all command lines with the option -v off; for the tables of list-symbols and find-symbols segments not named simple or complex; find-symbols without -f", "why_tests_cant": "The claim joins the reading of the files, the cutting of the lines into columns, the tables of symbols and the printing; tests use a few decks", "anchors": ["tools/list-symbols.py:main", "tools/check-symbols.py:main", "tools/find-symbols.py:main", "h800/symbol_table.py:buildSymbolTable"]}
{"id": "C155", "title": "genlines and genpages as commands", "statement": "Run as a command with two numbers of at most six characters and three optional ones, genlines prints start, start+step, ... below end+step (above it for a negative step), each padded with zeros to the width of the end number and at least 4, between blanks up to the given columns, exits with 0 and leaves all files alone; if one of the numbers is not a number, or the step is 0, it prints nothing and dies of a ValueError. Run on a file with a log section and page numbers, genpages prints nothing, exits with 0, and has appended one L card and one block per page to that file and changed no other file.", "quantifier": "all command lines, all file systems, all contents of the file", "why_tests_cant": "The claim is about the process as a whole: what is printed, the exit status and the files afterwards, for every argument and file", "anchors": ["tools/genlines.py:main", "tools/genpages.py:main"]}
{"id": "C156", "title": "The pages added by genpages change nothing that the other tools find", "statement": "After genpages has appended its pages to a source, every source (also one that includes that file) has the same lines in the same order with the same file names and line numbers, and between them only remarks and blank lines. So list-instructions and check-instructions (without -c, -p, -u and -v) print exactly what they printed before, list-symbols writes the same lines to its standard output, and check-symbols makes the same complaints, up to the text of the card itself, with the same suggestions and totals.", "quantifier": "all command lines of genpages that succeed, all sources with any includes, all options of list-instructions and list-symbols but -v; where a symbol table is built, of files whose names do not begin with simple. or complex.", "why_tests_cant": "A relation between the runs of different tools on the files before and after, for every source text", "anchors": ["tools/genpages.py:main", "tools/list-instructions.py:main", "tools/check-instructions.py:main", "tools/list-symbols.py:main"]}
{"id": "C157", "title": "Where a line stands matters only to the places reported", "statement": "If two sets of sources have the same lines in the same order, however they are divided into files and includes, whatever comments stand between them and whatever ends the lines, then list-instructions (without -d) prints the same lines for both, check-instructions finds the same number of mistakes, and with -c it prints the same table of frequencies, the same number of source lines and the same totals. If moreover each named file keeps its lines, then list-symbols shows the same symbols, segments, subsegments, kinds and lines, only with other places, check-symbols gives the same report, find-symbols --begin and --end the same names, and parse the same source lines and errors.", "quantifier": "all pairs of file systems, all divisions into files and includes; check-instructions without -p, -u and -v; where a symbol table is built, of files whose names do not begin with simple. or complex.", "why_tests_cant": "A relation between runs on arbitrarily different layouts of the same text", "anchors": ["tools/list-instructions.py:main", "tools/check-instructions.py:main", "h800/punchcard.py:Deck._readSource"]}
{"id": "C158", "title": "In ASCII sources the case of a label is the case of its letters", "statement": "For sources in ASCII the rules for labels need no reference to a case mapping: a label (columns 9-19, blanks taken out) is a mistake exactly if it contains one of the letters a-z, or two commas, or a comma with something other than B, F, S or Z before it, or if the operation is blank. Building the table counts exactly these lines, every other label defines its symbol - the text after the comma if there is one - and the total that parse prints is the number of these lines plus the number of lines with an unknown mnemonic.", "quantifier": "all ASCII sources; all case mappings that agree with the usual one on ASCII texts; where a symbol table is built, of files whose names do not begin with simple. or complex.", "why_tests_cant": "Which labels are accepted is decided by several tests in a row on the upper-cased and split label; tests see some labels.", "anchors": ["h800/symbol_table.py:buildSymbolTable", "tools/parse.py:main"]}
{"id": "C159", "title": "A complaint about a label identifies its line", "statement": "With repr() of strings as Python defines it, the names shown in the dumps are string literals that read back as the names, names of ordinary characters standing between apostrophes; no literal is the beginning of another, so that the text after it can be told apart. Hence two complaints about labels (the message and the current definition after it) that consist of the same two lines are about the same label in the same line of the same file with the same log number, and the list of names that find-symbols prints determines the names.", "quantifier": "all file names, line numbers and texts; whatever characters outside ASCII are printable", "why_tests_cant": "The claim compares all pairs of complaints; tests look at single ones.", "anchors": ["h800/symbol_table.py:buildSymbolTable", "tools/find-symbols.py:main"]}
{"id": "C160", "title": "A listing determines the lines it lists", "statement": "Two runs of listing on sources whose names contain no blanks write the same text exactly if the sources, with their includes put in place, have the same lines with the same files and line numbers (up to the ends of the lines). For names of at most 64 characters and numbers of at most 6 digits the name, the number and the text stand in columns 1-64, 66-71 and from 73 on.", "quantifier": "all file systems and sources, all lengths of names and numbers (for the first part)", "why_tests_cant": "A statement about all pairs of sources.", "anchors": ["tools/listing.py:main", "h800/punchcard.py:Deck._readSource"]}
{"id": "C161", "title": "With every option the tools print exactly what the text calls for", "statement": "Said of the text of the sources alone, for every setting of the options, and for any number of files: what each tool that reads sources prints, line by line, and that it ends with status 0 and changes no file. check-instructions and parse show the lines with a mnemonic if asked to (-p, -d), note skipped lines (-v), complain of unknown mnemonics, in the order of the lines, and end with the numbers of lines and of mistakes (for parse the label mistakes of the last file and the unknown mnemonics of all files); -c adds the frequencies, -u the mnemonics that do not occur, and with -c but not -u and no instruction at all check-instructions dies of a ZeroDivisionError after the heading. list-instructions prints the lines found. list-symbols, check-symbols and find-symbols first complain of the faulty labels; then come the table, the labels with only an ASSIGN definition, or the definitions of the symbol asked for, by segment, subsegment and kind, or the names with the given beginning or ending, or those the matcher picks among labels defined in the text. With -v the progress of the reading precedes what is said about each file.", "quantifier": "all sources, all command lines without mistakes, all settings of all options; segments not named simple or complex for the tools with a symbol table", "why_tests_cant": "The claim joins reading, cutting into columns, tables and printing for all texts and all combinations of options", "anchors": ["tools/parse.py:main", "tools/check-instructions.py:main", "tools/list-instructions.py:main", "tools/list-symbols.py:main", "tools/check-symbols.py:main", "tools/find-symbols.py:main"]}
{"id": "C162", "title": "A source that cannot be read stops the run after the files before it", "statement": "For every command line without mistakes of a tool that reads sources, and every state of the files: either all the sources can be read and the tool ends with status 0 (except for check-instructions -c without any instruction, a ZeroDivisionError), or everything up to the first source that cannot be read is reported as usual, after it nothing, and no file changes. A missing file or include is named on stderr and the status is 1; an include line without a name ends in an IndexError, includes nested too deep in a RecursionError, an empty name in a TypeError. With -v the progress until then is told. If reading reaches the limit of nesting before it comes to a missing file or an include line without a name, it is the RecursionError that ends it. Reading a file comes to at most one of these ends, whatever depth is allowed once it is large enough. listing keeps the listings written before, and writes none for the file that cannot be read; a later file may read a listing just written.", "quantifier": "all file contents, including cyclic includes; any number of files; all options; segments not named simple or complex for the tools with a symbol table", "why_tests_cant": "A test tries some broken files; the claim says what is left behind by every one, at every position among the files, and that nothing else can happen", "anchors": ["h800/punchcard.py:Deck._readSource", "h800/punchcard.py:Deck.__init__", "tools/check-instructions.py:main", "tools/list-instructions.py:main", "tools/check-symbols.py:main", "tools/find-symbols.py:main", "tools/list-symbols.py:main", "tools/parse.py:main", "tools/listing.py:main"]}
{"id": "C163", "title": "resolve blames exactly the incomplete records", "statement": "When resolve makes no progress it reports 'undefined symbol' once on every parseable record that is incomplete, and on no other record.", "quantifier": "all lists of records, contexts and limits", "why_tests_cant": "needs an assembler with at least two incomplete records and a look at which of them is told; the record list is overwritten during the first pass", "anchors": ["h800/assembler.py:Assembler.resolve"]}
{"id": "C164", "title": "The log of the assembler says what it did", "statement": "createSymbolTable logs the file and prints what reading it prints and the complaints about its labels, and when the file cannot be read the reason; assemble logs the file and how many lines it has, or only the file when it cannot be opened; parse logs label, opcode and operands and changes nothing; resolve logs the number of records, in every pass the line of each parseable record in order and the number of incomplete ones, and then success, or an error on each record still incomplete and a summary; with verbose it prints the time at the end of every run that does not raise.", "quantifier": "all assemblers, files, records and limits; where a symbol table is built, of files whose names do not begin with simple. or complex.", "why_tests_cant": "the log depends on every record in every pass and on every line of every file; nothing looks at it", "anchors": ["h800/assembler.py:Assembler.createSymbolTable", "h800/assembler.py:Assembler.assemble", "h800/assembler.py:Assembler.parse", "h800/assembler.py:Assembler.parseRecord", "h800/assembler.py:Assembler.resolve"]}
{"id": "C165", "title": "The order of the files does not matter to the symbol tools", "statement": "Naming the same files in another order leaves the report of list-symbols as it was when no two of them have the same segment, and leaves the names found by find-symbols --begin, --end and --fuzzy as they were, and the whole report of check-symbols (undefined symbols, suggestions, totals); only the complaints made while reading, which come file by file, change places. (Two files of one segment share their definitions and the later one wins, so there the order does matter.)", "quantifier": "all files, texts, options and permutations of the files; where a symbol table is built, of files whose names do not begin with simple. or complex.", "why_tests_cant": "it compares two runs for every permutation of any number of files; the repository has no test of the tools", "anchors": ["tools/list-symbols.py:main", "tools/check-symbols.py:main", "tools/find-symbols.py:main", "h800/symbol_table.py:buildSymbolTable"]}
{"id": "C166", "title": "A word is the same word by every route", "statement": "A word handed out by iterating over a bank is the word in the bank: every operation on its field data shows at its address and nowhere else, has the effect and raises the exceptions that it would on a 48-bit field of its own holding that number, and reading through the field sees what was stored through the bank; the four groups of an instruction word are always the four groups of twelve bits of its value, whichever of field, value or group was assigned.", "quantifier": "all banks after all histories mixing calls on the bank and on the fields of its words, all operations, all addresses; all instruction words after all histories", "why_tests_cant": "it relates two routes to the same object over histories of any length; a test follows one history and looks at a few cells", "anchors": ["h800/word.py:Word.__init__", "h800/memory.py:MemoryBank.__next__", "h800/memory.py:MemoryBank.__getitem__", "h800/word.py:InstructionWord", "h800/bitfield.py:BitField.__setitem__"]}
{"id": "C167", "title": "A memory cell holds a 48-bit number whatever is done", "statement": "Reading a cell of a bank gives a number from 0 to 2**48 - 1, after any use of the bank and of its words.", "quantifier": "all histories of calls on the bank and on the fields of its words", "why_tests_cant": "an invariant of histories of any length; a test cannot try all numbers on all routes", "anchors": ["h800/word.py:Word.value", "h800/memory.py:MemoryBank.__getitem__", "h800/bitfield.py:BitField.value", "h800/bitfield.py:BitField._checkValue"]}
{"id": "C168", "title": "A field cannot have a negative number of bits", "statement": "BitField rejects a negative width.", "quantifier": "all negative widths, values, numberings and orders", "why_tests_cant": "the widths are unbounded; no test uses a negative one", "anchors": ["h800/bitfield.py:BitField.__init__", "h800/bitfield.py:BitField._checkIndex", "h800/bitfield.py:BitField.set", "h800/bitfield.py:BitField.clear"]}
{"id": "C169", "title": "The tools agree with each other", "statement": "For the same readable files: find-symbols --begin P (or --end P) prints exactly the names of list-symbols' report that begin (end) with P, in order; find-symbols S calls S undefined exactly if S is not in that report; check-symbols --complex complains about exactly the symbols all of whose lines in the report are <complex>; list-symbols' total is the sum of the numbers check-symbols and find-symbols give for the files; and for one file parse's number of errors is the sum of those of check-symbols (building the table) and check-instructions.", "quantifier": "all files with their includes and of any names for which list-symbols (parse for the last part) ends with status 0, all prefixes, suffixes and symbols, all other options", "why_tests_cant": "it relates several programmes on the same unbounded input, each with its own code for the question", "anchors": ["tools/list-symbols.py:main", "tools/find-symbols.py:main", "tools/check-symbols.py:main", "tools/parse.py:main", "tools/check-instructions.py:main", "h800/symbol_table.py:findSymbolDef", "h800/symbol_table.py:checkSymbolTable"]}
{"id": "C170", "title": "list-instructions finds what check-instructions counts", "statement": "For every mnemonic and the same files, list-instructions prints as many lines as check-instructions --count counts, and none exactly if --unused lists the mnemonic.", "quantifier": "all mnemonics, files and other options", "why_tests_cant": "the two programmes take the operation apart in different ways; only particular texts show the difference", "anchors": ["tools/list-instructions.py:main", "tools/check-instructions.py:main"]}
{"id": "C171", "title": "Similar names are looked for among all symbols with a simple definition", "statement": "find-symbols --fuzzy and the suggestions of check-symbols --complex choose among all symbols of the files that have a simple definition.", "quantifier": "all files, segments and symbols, whatever the matcher does; where a symbol table is built, of files whose names do not begin with simple. or complex.", "why_tests_cant": "the order of symbols and segments decides which are left out; the number of files is unbounded", "anchors": ["h800/symbol_table.py:getAbsoluteSymbols", "h800/symbol_table.py:findSymbolDef", "tools/find-symbols.py:main", "tools/check-symbols.py:main"]}
{"id": "C172", "title": "Only the type, the star, the label and the operation of a line matter to the tools", "statement": "Changing the log numbers, addresses, remarks and sequence numbers of any lines of the sources (everything but whether column 1 is P, R or L, whether column 8 is *, and the texts of columns 9-19 and 20-32; on remarks these texts too; in a label also the blanks anywhere in it), moving lines to included files or back, and adding or removing comments, leaves the reports as they were: the counts and frequencies of check-instructions, the source lines and errors counted by parse, the report of check-symbols with its suggestions, the names found by find-symbols and whether a symbol is defined. list-instructions finds the corresponding lines and list-symbols shows the same symbols, segments, subsegments and kinds from the corresponding lines; only the texts and places of the lines they show differ. In particular the addresses of an EQUALS that repeats a definition do not matter.", "quantifier": "all pairs of sources of any length that agree in these columns, all options; where a symbol table is built, of files whose names do not begin with simple. or complex.", "why_tests_cant": "it compares two runs on every pair of sources; no finite set of edits to the other columns settles it", "anchors": ["h800/arguscard.py:ArgusCard", "h800/symbol_table.py:buildSymbolTable", "tools/check-instructions.py:main", "tools/list-instructions.py:main", "tools/list-symbols.py:main", "tools/check-symbols.py:main", "tools/find-symbols.py:main", "tools/parse.py:main"]}
{"id": "C173", "title": "Several files together give what they give one after the other, put together", "statement": "Running a tool on two groups of files together gives: for list-instructions the two outputs one after the other; for check-instructions both sets of complaints and the sums of the errors, source lines, totals and of the frequency of every mnemonic, and as unused the mnemonics unused in both; for list-symbols the definitions of both, where those of the later files replace those of the earlier ones with the same symbol, segment, subsegment and kind, and the sum of the errors; for find-symbols --begin and --end the union of the names; for check-symbols the sum of the complaints, and as undefined those symbols reported by either run that have a simple definition in none of the files.", "quantifier": "all groups of files of any number and length, all options; where a symbol table is built, of files whose names do not begin with simple. or complex.", "why_tests_cant": "it compares three runs for arbitrary splits of any number of files", "anchors": ["tools/list-instructions.py:main", "tools/check-instructions.py:main", "tools/list-symbols.py:main", "tools/find-symbols.py:main", "tools/check-symbols.py:main", "h800/symbol_table.py:buildSymbolTable"]}
{"id": "C174", "title": "The operation code tells the instruction, in the number of bits the manual gives it", "statement": "The operation code of an instruction word - three bits of a simulator instruction, six bits of an instruction with a mask, of a print and of a peripheral instruction, eight bits of the others, at the positions section III of the reference manual gives - is the same for two instructions exactly if they have the same mnemonic and both or neither have a mask, or both print, or are the unmasked NA and the FNN, which the assembler manual says are one instruction; operands do not change it.", "quantifier": "all instruction classes, all ways to call them, all operands", "why_tests_cant": "pairs of classes times all operand values; a wrong entry of the table is seen only by comparing it with all others", "anchors": ["h800/instructions.py:OPCODES", "h800/instruction.py:Instruction.__init__", "docs/prm/Honeywell-1800-PRM.md"]}
{"id": "C175", "title": "The character set is the one of the reference manual", "statement": "Each six-bit code stands for the character that Table I of the reference manual gives it in the high-speed printer column, and codes without a character there have none.", "quantifier": "all codes and characters", "why_tests_cant": "it compares a table with a document, in both directions", "anchors": ["h800/charset.py:CHARSET", "docs/prm/images/table_I.png"]}
{"id": "C176", "title": "An instruction class takes a mask exactly if the manual lets the instruction be masked", "statement": "For every instruction class some arguments with a mask are accepted if the mnemonic is one of the field instructions of figure 8 of the ARGUS manual (note 2), and if it is not, every call with a mask is refused.", "quantifier": "all instruction classes, all ways to call them, all operands", "why_tests_cant": "that no arguments with a mask are accepted by the other classes is about all calls", "anchors": ["h800/instructions.py", "h800/instruction.py:Instruction.__init__", "docs/argus/ARGUS_Manual_of_Assembly_Language.md"]}
{"id": "C177", "title": "The tags of the ARGUS manual, and only they, are taken for symbols", "statement": "A line whose location field holds a tag as section IV of the ARGUS manual describes it (symbolic, mask, special register, link and out-of-sequence tags) and which has a command code is accepted and the name in the tag becomes a symbol; a location field that holds anything else is reported as an error.", "quantifier": "all sources of any length in ASCII, all tags; where a symbol table is built, of files whose names do not begin with simple. or complex.", "why_tests_cant": "the tags form an infinite language given by the document and not by the code", "anchors": ["h800/symbol_table.py:buildSymbolTable", "docs/argus/ARGUS_Manual_of_Assembly_Language.md"]}
{"id": "C178", "title": "Symbols are recorded in the subsegment the manual puts them in", "statement": "A symbol is recorded in the subsegment 1 to 7 given by the last SETLOC,n or SETLOC,nC before or on its line that gives one (section VIII of the ARGUS manual; blanks do not matter, a SETLOC without a number stays in the same subsegment), or in subsegment 1 without any.", "quantifier": "all sources of any length; where a symbol table is built, of files whose names do not begin with simple. or complex.", "why_tests_cant": "the place depends on any number of earlier lines", "anchors": ["h800/symbol_table.py:buildSymbolTable", "docs/argus/ARGUS_Manual_of_Assembly_Language.md"]}
{"id": "C179", "title": "Tags assigned to complex addresses are recorded as complex", "statement": "A symbol is recorded as complex exactly if it is the tag of a line with one of the operations that assign a tag to a complex address in the ARGUS manual, ASSIGN and TAS, and as simple exactly if it is the tag of another line.", "quantifier": "all sources of any length, all symbols; where a symbol table is built, of files whose names do not begin with simple. or complex.", "why_tests_cant": "an if-and-only-if about the table made from any number of lines", "anchors": ["h800/symbol_table.py:buildSymbolTable", "docs/argus/ARGUS_Manual_of_Assembly_Language.md"]}
{"id": "C180", "title": "Blanks in the command code do not matter", "statement": "As section VII of the ARGUS manual says, spaces in the command code field are ignored: two sources whose lines differ in blanks within the operations only are the same to check-instructions and list-instructions.", "quantifier": "all pairs of sources of any length, all operations", "why_tests_cant": "it compares two runs on every pair of sources", "anchors": ["tools/check-instructions.py:main", "tools/list-instructions.py:main", "h800/arguscard.py:ArgusCard", "docs/argus/ARGUS_Manual_of_Assembly_Language.md"]}
{"id": "C181", "title": "check-instructions knows the operation codes of the manual", "statement": "A source whose command codes are operations the ARGUS manual describes has no invalid instruction: machine instructions, control and assembly instructions, constants, extended instructions, the calls of library and programmer macro routines, test data words and the LAMP codes; a source with any other command code has one.", "quantifier": "all sources of any length, all sets of files", "why_tests_cant": "it compares a table with a document in both directions, for sources of any length", "anchors": ["tools/check-instructions.py:main", "h800/instructions.py:INSTRUCTIONS", "docs/argus/ARGUS_Manual_of_Assembly_Language.md"]}
{"id": "C182", "title": "Naming a file twice or in another order does not matter to the symbol tools", "statement": "Two runs of list-symbols, check-symbols or find-symbols (--begin, --end or fuzzy) over the same set of files, whatever the order in which they are named and however often, show the same symbols with the same lines, report the same undefined symbols with the same suggestions, and find the same names. For list-symbols no two of the files may be the same segment; only the complaints about faulty labels and the totals may differ.", "quantifier": "all file systems, all lists of files with the same members, all options; where a symbol table is built, of files whose names do not begin with simple. or complex.", "why_tests_cant": "it relates two runs over unboundedly many orders and repetitions of files", "anchors": ["tools/list-symbols.py:main", "tools/check-symbols.py:main", "tools/find-symbols.py:main", "h800/symbol_table.py:buildSymbolTable"]}
{"id": "C183", "title": "A program stored in memory reads back and decodes", "statement": "Instructions of any classes, packed into instruction words and stored at different places of a memory module of 4 or 8 banks, after any history and before any calls that do not assign to those places, are read back as the same 48 bits; setting an instruction word to these bits gives back the command code and the three address groups. Two instructions with the same 48 bits have the same groups and are the same machine instruction.", "quantifier": "all programs of any length, all histories of calls, all operands and groups", "why_tests_cant": "programs and call histories are unbounded; it composes the instruction table, the packing of words and the memory", "anchors": ["h800/memory.py:MemoryModule", "h800/memory.py:MemoryBank", "h800/word.py:InstructionWord", "h800/instructions.py:OPCODES", "h800/instruction.py:Instruction.__init__"]}
{"id": "C184", "title": "The S/C column is not part of the operation", "statement": "In the coding form of the ARGUS manual the last column of the command code field (column 32 of a line) names the counter of the next instruction by an S, a C or a blank and does not belong to the operation: check-instructions accepts, and list-instructions finds, an instruction whatever this column says.", "quantifier": "all sources of any length, all mnemonics", "why_tests_cant": "it compares the reports on every pair of sources that differ in this column; for single lines the tests never use the column", "anchors": ["h800/arguscard.py:ArgusCard", "tools/check-instructions.py:main", "tools/list-instructions.py:main", "docs/argus/ARGUS_Manual_of_Assembly_Language.md"]}
{"id": "C185", "title": "A memory module is one array of words", "statement": "Reading and assigning module[a // 2048][a % 2048] for any addresses a and any values behaves, over every history of such accesses, like one array of 8192 (4 banks) or 16384 (8 banks) words: each read gives the last value assigned to that address or 0; addresses outside the array raise KeyError and values that are not 48-bit numbers ValueError, without effect.", "quantifier": "all histories of reads and assignments, all integer addresses and values", "why_tests_cant": "histories are unbounded, and the cells are spread over several dictionaries of objects", "anchors": ["h800/memory.py:MemoryModule", "h800/memory.py:MemoryBank", "docs/prm/Honeywell-1800-PRM.md"]}
{"id": "C186", "title": "A special register holds an address and is stored in the low-order bits of a word", "statement": "As sections IV and V and appendix F of the reference manual say: in a register of 16 or 24 bits, after any history, the last 11 bits are a subaddress, the four before them a bank indicator, and the bit before these the sign, so that r[W-14:W-11] and r[W-10:W] lead to the word the last 15 bits number. A word made from the value of a register has its bits, in order, as its last W bits and zeros before them; a register set to the last W bits of any word has these bits and ignores the others.", "quantifier": "all histories of fitting operations on a register, all words", "why_tests_cant": "it ranges over all register histories and all 2^48 words", "anchors": ["h800/registers.py:Register", "h800/word.py:Word", "h800/bitfield.py:BitField.__getitem__", "docs/prm/Honeywell-1800-PRM.md"]}
{"id": "C187", "title": "The instruction classes make exactly the command codes of the reference manual", "statement": "Every command code an instruction class makes has the zeros and ones of a line of table II of appendix E of the reference manual with the mnemonic of the class, a masked line exactly if a mask was given, with zeros at the irrelevant places; and every code of 12 bits that shows a line of the table, the address bits of simulator instructions included, is made by the class of that mnemonic for some arguments.", "quantifier": "all classes, all arguments they accept, all 12-bit codes", "why_tests_cant": "an equality of two sets of codes, one given by a transcribed table, over all arguments", "anchors": ["h800/instructions.py:OPCODES", "h800/instructions.py:Simulator", "h800/instruction.py:Instruction.__init__", "docs/prm/Honeywell-1800-PRM.md"]}
{"id": "C188", "title": "The control memory is one array of 256 special registers with the mnemonic addresses of the manual", "statement": "Reading and assigning registers[a // 32][a % 32].value for any 8-bit address a, or registers[g][name].value for a group and a mnemonic address, behaves over every history like one array of 256 registers of W bits, with the subaddresses of figure V-1 of the reference manual; other addresses, groups and names, and values that do not fit, raise ValueError without effect. registerName and registerNumber give exactly the mnemonics and subaddresses of the figure, and registerNumber and registerAlias those of the read-write counters.", "quantifier": "all histories of reads and assignments, all integers, all texts as names", "why_tests_cant": "histories are unbounded; each access goes through cursors and shared objects that a previous access has changed", "anchors": ["h800/registers.py:Registers", "h800/registers.py:RegisterGroup", "h800/registers.py:registerNumber", "docs/prm/Honeywell-1800-PRM.md"]}
{"id": "C189", "title": "Reading a file without following its includes", "statement": "Reading a source with recurse=False gives one card for each line of that file but the # lines, in order and with its number, the lines beginning with $ among them, whatever the files they name contain; verbose reports are those of this file alone. The file and every file named after a $ met on the way must exist, else the message names the first that does not and the programme exits; a $ without a name raises IndexError. A file without $ lines reads exactly as with recurse=True.", "quantifier": "all file systems, file names, usable layouts, card classes, with and without verbose", "why_tests_cant": "texts are unbounded and the order of checks, messages and cards matters", "anchors": ["h800/punchcard.py:Deck._readSource"]}
{"id": "C190", "title": "The helpers of bit-fields that nothing calls", "statement": "_getBitValue(i, v, w) is the bit of weight 2^i of v, whatever the numbering and order of the field, for every v up to and including 2^w and every width w from 0 to the largest value of the field; any other width or value, and a negative i, raise ValueError; without w the width of the field counts. Of two positions, _msbIndex gives the one of the more significant bit and _lsbIndex that of the other, in all eight layouts.", "quantifier": "all layouts, widths, integers as values and positions", "why_tests_cant": "unbounded integers in eight layouts, and nothing in the package exercises them", "anchors": ["h800/bitfield.py:BitField._getBitValue", "h800/bitfield.py:BitField._msbIndex", "h800/bitfield.py:BitField._lsbIndex"]}
{"id": "C191", "title": "Tuple classes with default values", "statement": "namedtuple_defaults(name, fields, defaults) makes a class whose tuples have exactly the fields, in order: a field gets the value given by position, else the one given by name, else its default, else None, and can be read back under its name. A call with too many values, with a name that is no field or with a field given twice raises TypeError, as do more defaults than fields; invalid or repeated names raise ValueError. Each row of OPCODES, as written, is the tuple of that kind, with its six values under their names and type \"unmasked\" where none is written.", "quantifier": "all lists of fields, defaults and positional and keyword arguments; all rows of the table", "why_tests_cant": "calls and field lists are unbounded, and what a field gets depends on four sources at once", "anchors": ["h800/instructions.py:namedtuple_defaults", "h800/instructions.py:Opcode", "h800/instructions.py:OPCODES"]}
{"id": "C192", "title": "Every register of a register file lives a life of its own, whatever numbers are assigned", "statement": "After any history of calls on Registers(width), also one that assigns numbers that do not fit, a call that leads to register i of group k (by number, by name, or by iteration) answers exactly what it answers on a fresh Register with that name and width on which only those calls of the history were made that led to it, where a clear() counts for the registers not yet passed by an iteration; a call that leads to no register raises ValueError, or StopIteration at the end of an iteration. In particular a call on one register never shows in another one, and registers made before are untouched.", "quantifier": "all histories, all paths to a register, all actions", "why_tests_cant": "aliasing between 256 objects after unbounded histories; the refusal of numbers that do not fit is incomplete (C08), so one must know where such a number can show", "anchors": ["h800/registers.py:Registers", "h800/registers.py:RegisterGroup", "h800/registers.py:Register"]}
{"id": "C193", "title": "Assigning a group or a register shares it and copies nothing", "statement": "Over any history of calls on Registers(width) that may also assign groups (regs[k] = regs[j], regs[k] = RegisterGroup(w)) and registers (regs[g][k] = r), every call answers as in a store in which the places 0-7 point to groups: an assignment makes no copy, so what is done through one place is seen through every place that holds the same group, iteration included, and through no other place. A new group reads zero everywhere and has its own width. Assigning under a key other than the integers 0-7 changes only len(regs) and the printed text. A register assigned in a group under a string is found by no lookup, but len and print count it; under an integer it raises KeyError. Registers made before are untouched.", "quantifier": "all histories with assignments, all keys, all widths", "why_tests_cant": "aliasing: which of 256 and more objects is reached depends on the whole history of assignments", "anchors": ["h800/registers.py:Registers.__setitem__", "h800/registers.py:RegisterGroup.__setitem__", "h800/registers.py:Registers.__getitem__"]}
{"id": "C194", "title": "Which definitions a symbol table built from files of any names ends up holding", "statement": "Take the definitions of the files in order: symbol, segment (from the file's name), subsegment, kind (simple or complex), type of the tag and card. A definition is refused, and counted as an error, exactly if the symbol has an earlier definition in the same segment and subsegment and also one in a segment that is called like the kind of the new definition; so refusals need files called simple.x or complex.x, and other duplicates replace silently. The table holds, for each symbol, segment, subsegment and kind, the last definition that was not refused. The first refused EQUALS ends the program: with AttributeError if the symbol has a subsegment card in the segment simple, with KeyError otherwise. list-symbols, check-symbols and find-symbols show exactly the table so described, with the label errors plus the refusals as total (check-symbols adds the symbols it reports), or end in exactly that exception.", "quantifier": "all file systems without missing sources, all lists of one or more files (their names included), all begin/end/exact settings without ambiguous", "why_tests_cant": "depends on the whole sequence of earlier definitions and on the names of the files; the examples in the repository have no such name", "anchors": ["h800/symbol_table.py:buildSymbolTable", "tools/list-symbols.py:main", "tools/check-symbols.py:main", "tools/find-symbols.py:main"]}
{"id": "C195", "title": "Everything the symbol tools print for files of any names", "statement": "For files of any names, also simple.x and complex.x, list-symbols, check-symbols, find-symbols (exact, --begin, --end, --fuzzy) and parse print exactly this. For each file in order: the lines about reading it (with --verbose); then, card by card, two lines for a faulty label (the complaint and the definition), four lines for a refused definition (see C194: multiply-defined, the definitions of the same symbol, segment and subsegment that are held at that moment, by kind in the order of the first of each kind and each the last one not refused, the definition, the command), and nothing else; then its number of complaints (all but list-symbols). After that the answer of the tool, taken from the definitions in force. If an EQUALS is refused the output stops before it and the program ends in the exception of C194. The lines are determined by the files.", "quantifier": "all file systems without missing sources, all lists of one or more files (their names included), all symbols, options and fuzzy matchers, all printing functions for strings and cards", "why_tests_cant": "each line about a refused definition shows the state of the table after all cards before it; the number of histories is unbounded and no example in the repository has a refused definition", "anchors": ["h800/symbol_table.py:buildSymbolTable", "tools/list-symbols.py:main", "tools/check-symbols.py:main", "tools/find-symbols.py:main", "tools/parse.py:main"]}
{"id": "C196", "title": "The symbol tools as commands, for sources of any names and in any state", "statement": "For every command line without mistakes of check-symbols, find-symbols, list-symbols and parse, whatever the names of the sources and whether they can be read, exactly one of three things happens, and no file changes. (1) All sources can be read and no EQUALS is refused with a clash: the output is that of C195 (the lines about the table and then the answer of the tool) and the status is 0. (2) Before any source that cannot be read there is an EQUALS that clashes: the output stops before it, the program ends in a KeyError, or in an AttributeError in the one case of C194, whatever the sources after it are. (3) Otherwise the run stops at the first source that cannot be read, after the lines about the sources before it and the progress of reading it, as in C162. Each case determines the output and the status, and the status tells which one it was. No exception but these and those of C162 can end these tools.", "quantifier": "all file systems and states of the sources (missing, with missing includes, nested too deep, without an include name), all lists of sources including simple.x and complex.x, all options and symbols, all printing functions and fuzzy matchers", "why_tests_cant": "which of several faults decides the run depends on the order of unboundedly many cards and files; the repository has no test that runs a tool, and none with a file called simple or complex", "anchors": ["h800/symbol_table.py:buildSymbolTable", "tools/list-symbols.py:main", "tools/check-symbols.py:main", "tools/find-symbols.py:main", "tools/parse.py:main", "h800/punchcard.py:Deck._readSource"]}
{"id": "C197", "title": "A tool looks only at its sources and what they include, needs each of them, and writes nothing else", "statement": "A tool looks only at the files named on its command line and at the files these include, directly or through others (genpages at the one file, genlines at none): in two file systems that agree on those files it prints the same, ends the same way and writes the same files with the same contents, whatever else is there. The only files that can differ afterwards are the listings of the files named to listing and the file named to genpages. Each file looked at is needed: if the run ends with status 0, the same run without one of these files ends with status 1 (2 for genpages).", "quantifier": "all pairs of file systems, all tools, all command lines, also wrong ones; for listing, listings that do not take the place of a file looked at", "why_tests_cant": "a frame condition over all other files and over includes of any depth", "anchors": ["h800/punchcard.py:Deck._readSource", "tools/listing.py:main", "tools/genpages.py:main", "tools/parse.py:main", "tools/list-symbols.py:main"]}
{"id": "C198", "title": "Commands that keep out of each other's way give the same in any order, and again", "statement": "In a session of commands of which none writes a file that another one reads or writes (and no listing takes the place of its own sources), every command prints and ends exactly as it would alone on the files at the beginning, whatever the order; afterwards every file that a command writes is as that command alone would leave it, and every other file is untouched. A command other than genpages, repeated any number of times, prints the same each time and leaves the files as after the first time.", "quantifier": "all sessions of any number of commands of all tools, all command lines, all file systems", "why_tests_cant": "all orders of any number of commands on one file system", "anchors": ["tools/listing.py:main", "tools/genpages.py:main", "h800/punchcard.py:Deck._readSource", "tools/list-symbols.py:main"]}
{"id": "C199", "title": "Arguments that are not integers are refused and change nothing", "statement": "A field, or a word, made with or given an argument that is not an integer (a float, a text, None, a list) refuses it: the call raises an exception and changes nothing. In particular a field always holds an integer, after any history of calls with arguments of any type, and reading with an index or a range that is not made of integers raises TypeError or ValueError.", "quantifier": "all histories of calls, all arguments of the built-in types but complex (floats with infinities and NaN and arbitrary rounding), all fields and layouts; only a width that is a float is left out", "why_tests_cant": "the type of every argument is a further dimension of every call; where the wrong type is noticed, if at all, depends on which operator meets it first, and histories are unbounded", "anchors": ["h800/bitfield.py:BitField.__init__", "h800/bitfield.py:BitField.__getitem__", "h800/bitfield.py:BitField.__setitem__", "h800/bitfield.py:BitField.value", "h800/bitfield.py:BitField.set", "h800/bitfield.py:BitField.clear", "h800/bitfield.py:BitField.isRange", "h800/word.py:Word.value", "h800/word.py:Word.__init__"]}
{"id": "C200", "title": "Keys and values that are not integers do not reach the memory", "statement": "A memory bank is read and written with integers only: a call with a key or a value that is not an integer (a float, a text, None, a list) raises an exception and changes no word, so that after any history of calls with arguments of any type every word holds an integer of 48 bits. A memory module gives a bank for an integer only.", "quantifier": "all histories of calls on a bank, all keys of a module, all keys and values of the built-in types but complex (floats with infinities and NaN)", "why_tests_cant": "the type of every argument is a further dimension of every call, and a dictionary finds a key that is merely equal; histories are unbounded", "anchors": ["h800/memory.py:MemoryBank.__getitem__", "h800/memory.py:MemoryBank.__setitem__", "h800/memory.py:MemoryBank.__next__", "h800/memory.py:MemoryBank.clear", "h800/memory.py:MemoryModule.__getitem__", "h800/memory.py:ExpansionMemoryModule.__getitem__", "h800/word.py:Word.value"]}
{"id": "C201", "title": "Only integers become the value of a register", "statement": "Creating a register, or assigning to its value, with anything but an integer (a float, a text, None, a list) raises an exception and changes nothing, and so does a width that is not an integer: after any assignments of any type the register is what the integers among them made it. A register group finds for a float only the register of the number it is equal to and refuses every other object that is not a text; a register file refuses every key that is not an integer. Slices are refused by both.", "quantifier": "all registers, all lists of assignments, all values, widths and keys of the built-in types but tuples and complex (floats with infinities and NaN)", "why_tests_cant": "the type of every argument is a further dimension of every call: a float in range passes the range test and is only stopped by a shift deep inside the bit field; histories are unbounded", "anchors": ["h800/registers.py:Register.__init__", "h800/registers.py:Register.value", "h800/registers.py:RegisterGroup.__getitem__", "h800/registers.py:Registers.__getitem__"]}
{"id": "C202", "title": "Only numbers equal to the integers encoded make an instruction", "statement": "An instruction made with arguments of any type either raises an exception or has the value of the instruction made with the integers its arguments are equal to: a float equal to 0 or 1 does for A, B and C, and one equal to 0 for the sequence bit; every other argument that is not an integer (a float as mask or peripheral address, a text, a list) is refused.", "quantifier": "all rows of an opcode table with integers or None, all combinations of arguments of the built-in types but complex (floats with infinities and NaN and arbitrary rounding)", "why_tests_cant": "six arguments of any type, any of them absent; a float passes the tests of range and membership and is only noticed, if at all, by a shift inside the bit field", "anchors": ["h800/instruction.py:Instruction.__init__", "h800/instruction.py:Instruction._check"]}
{"id": "C203", "title": "Nothing but integers gets into an instruction word or a constant", "statement": "An instruction word or constant made with arguments of any type either raises an exception or has the value of the one made with those integers. Assigning anything but an integer to the command or to an address group raises an exception and changes no bit, so after any sequence of assignments of any types the word is what the integers among them made it.", "quantifier": "all arguments of the built-in types but complex (floats with infinities and NaN and arbitrary rounding), all sequences of assignments to the four fields", "why_tests_cant": "four arguments of any type, and histories of any length that mix good and refused assignments", "anchors": ["h800/word.py:InstructionWord", "h800/instruction.py:Constant"]}
{"id": "C204", "title": "A bit field has a whole number of bits", "statement": "A width that is not an integer is refused by the constructor of a bit field.", "quantifier": "all floats as width, numberings and orders, all keys and values of the built-in types but complex, all histories of calls, with arbitrary float arithmetic", "why_tests_cant": "fractional widths, infinities and NaN, histories of any length; the constructor accepts them and the failure shows only at a later call, which one depending on the layout", "anchors": ["h800/bitfield.py:BitField.__init__", "h800/bitfield.py:BitField.__setitem__"]}
