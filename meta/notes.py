NOTES = {
"C02": "REFUTED: negative initial values are accepted in every configuration (C02_constructor_range_refuted). The upper bound does hold. Exactly: a field is made if and only if width, numbering and order are valid and the value is at most 2^width - 1.",
"C07": "REFUTED for every proper multi-bit range of an LSB-left field: the mask is shifted to the wrong end. Proved for one-bit and full-width ranges, with the exact wrong result for all others. The result of every accepted assignment to such a range is given bit by bit.",
"C08": "REFUTED: the check is value > 2^n, so 2^n and every negative number are accepted. Rejection of every value > 2^n is proved. The result of every accepted assignment is given bit by bit: a slice keeps all the bits of the number, also those beyond the slice.",
"C12": "REFUTED: set(0)/clear(0) act on the whole field in the 0-based schemes. Indices other than 0 are C11. Exactly: set(0) and clear(0) are set() and clear().",
"C15": "REFUTED: on an MSB-left field isRangeSet is False for every range that does not end at the units bit. Proved for ranges ending there and for the full width. The exact condition is proved for every valid range of both bit orders.",
"C16": "REFUTED: isRangeClr is the negation of isRangeSet, so it is True for mixed ranges. isRange(..,0) is right on MSB-left fields. The exact condition is proved for every valid range of both bit orders.",
"C23": "REFUTED: the field check is value > 2^12, so 4096 and every negative number are accepted; a=4096 sets the low bit of the command field and the command setter can make the value 2^48. Rejection of every value > 4096 is proved. The value after every accepted assignment is given bit by bit.",
"C28": "REFUTED: a slice that starts in the bank and ends beyond it writes every cell up to 2047 before KeyError. Every other failing slice assignment is proved to have no effect.",
"C29": "REFUTED: the cursor is never reset, so every loop after the first complete one visits nothing. The first loop is proved to visit all 2048 words in order. After any history a loop visits exactly the words that the next() calls in it have not passed.",
"C31": "REFUTED: the property functions take extra positional arguments, so reading and assigning always raise TypeError. Called directly with an address (and a value) they raise TypeError too, or ValueError if one is out of range, as a Word supports neither int() nor item assignment.",
"C36": "REFUTED: a group rejects every alias (RAC, DRAC, WAC, DWAC) with ValueError, although registerNumber resolves them. Lookup by the 32 register names is proved.",
"C37": "REFUTED for every key: a string key is stored beside the registers (length 33) and no lookup returns the new register; an int key raises KeyError. Nothing positive is left to prove.",
"C38": "REFUTED: clear() iterates over the one-shot cursor, so a second clear() changes nothing. The first clear() of a group or register file whose cursors have not moved is proved to zero everything (and a group clear only that group). After any history clear() zeroes exactly the registers at or after the places reached by earlier iteration and clearing, and no other.",
"C40": "REFUTED: cursors are never reset, so every loop after the first complete one visits nothing. The first loop is proved to visit every element in order. After any history a loop visits exactly the elements at or after the place reached, in order.",
"C41": "REFUTED: every integer key is accepted; regs[8]=g makes len 9 and regs[8] still raises. Keys 0..7 and non-integer keys are proved right.",
"C47": "REFUTED: Instruction(opcode, paddr=p) and Peripheral(opcode, p) accept every opcode of the table for all p in 0..63. Proved: the named non-peripheral classes take no paddr argument (TypeError).",
"C48": "REFUTED: NotEqualAlphabetic (unmasked) and FloatingNotEqualNormalized have the same code for all operand bits. Every other pair of different mnemonics (and masked NA against FNN) is proved distinct.",
"C51": "REFUTED for TS: its c field is TransferAndChangeSequence, no such class exists (the class is TransferChangeSequence). Proved for the other 63 opcodes.",
"C53": "REFUTED: PseudoInstruction passes keyword arguments Instruction.__init__ does not have, so every construction raises TypeError. Nothing positive is left to prove.",
"C60": "REFUTED: the remark is taken from column 10 (line[9:]), so every remark card with a non-blank column 9 loses its first character. Proved: remarks is the trimmed text from column 10, which is the whole remark when column 9 is blank or absent.",
"C65": "REFUTED: include files that include each other are read without end (RecursionError whatever the stack limit). Proved: with an acyclic include structure reading ends for every file system, with or without missing files. Among finitely many files the reading is without end exactly if the file is in a set of files that include each other.",
"C72": "REFUTED: every call with a non-empty name ends in AttributeError and leaves the table unchanged (a missing attribute for unknown names, a property without setter for known ones); nothing positive is left.",
"C74": "REFUTED: the loop deletes from the list it enumerates, so of two neighbours with values the second survives. Proved: it never removes a symbol without a value, and removes all symbols with values when no two neighbours have one. Exactly: of each run of neighbours with values the first, third, fifth and so on are removed.",
"C78": "REFUTED: outside segments called simple or complex the count is exactly the number of ill-formed labels, so multiple definitions are never counted (with a two-card deck as witness). The exact count is proved for all files: ill-formed labels, and cards that define a symbol again when it is also in a segment with the name of the kind of definition.",
"C82": "REFUTED: the flag that stops the search is never reset, so after the first hit only the least segment of each symbol is examined. Proved: an exact characterisation of what is listed, in ascending order without duplicates.",
"C84": "REFUTED: for a file called simple.* a redefinition by EQUALS raises KeyError. Proved: it returns for every readable deck when neither the segment nor a segment of the table is called simple or complex. Exactly: it fails at the first EQUALS card whose symbol is in its segment and subsegment already and also in a segment called simple, with KeyError, or AttributeError if it is in a subsegment called card there.",
"C86": "REFUTED: whenever step does not divide end - start a number beyond end is printed. Proved: when it divides, exactly start, start+step, ..., end are printed.",
"C89": "REFUTED: the count of each file overwrites that of the previous one, so only the symbol errors of the last file are in the total (any ill-formed label in an earlier file makes it too small). Proved: total = symbol errors of the last file + invalid instructions of all files.",
"C90": "REFUTED: names that differ only in the extension share one listing, all names without a dot share '.lst', and p.lst overwrites its own source. Proved: one line per card in order for every readable source, nothing else written, and for several sources with one common extension other than lst (and no listing included anywhere) each gets its own complete listing.",
"C98": "REFUTED: a section card with a blank column 8 is written with the text None in columns 8-11, so the next reader sees column 8 = N. Proved: the card reads back unchanged when column 8 is not blank.",
"C99": "REFUTED: a deck without instruction cards ends in ZeroDivisionError. Proved: the whole report for every deck with at least one instruction card. Percentages are an arbitrary function here; C137 has their values.",
"C101": "REFUTED: without options the match is exact, so a text that is only a proper part of defined symbols is never found, and --exact changes nothing. Proved: the exact match, --begin, --end and the refused combinations (--fuzzy is delegated to the external package and only modelled as an arbitrary function).",
"C94": "REFUTED: SymbolTable is not defined in the module, so construction always raises (NameError when options has verbose and debug). Nothing positive is left.",
"C167": "REFUTED: a word's field is a public attribute and its value setter accepts every negative number and 2**48, so any number up to 2**48 can be put into any cell and is then read from the bank. Proved: if what is assigned through fields fits its place, every cell reads a number from 0 to 2**48 - 1.",
"C168": "REFUTED: with a negative width every negative value is accepted. Proved of such a field: it has no bits, every index, range and assignment of value raises and changes nothing, len, bool and repr raise, and only set() and clear() (also with index 0) change it, set() to a float.",
"C163": "REFUTED: the first pass replaces every parseable record by the context's current record, so the errors all go to that record, once for every parseable record, complete or not; an incomplete record other than the current one is never told. Proved: the blamed record is incomplete, is the current one, gets the message 'undefined symbol', and errors are reported only after two passes and when a record was incomplete.",
"C95": "REFUTED: nothing in the class sets context, so resolve raises AttributeError on every assembler the class can make; with a context and records supplied from outside every parseable record is replaced by the current record, so a second pass reports success although an incomplete record was there. Proved for supplied context and records: at most min(3, maxPasses) passes, success in the first pass exactly when no parseable record is incomplete, failure only when one is, the pass number and error count it leaves, nothing else changed, and the exception for record lists that do not fit.",
"C103": "REFUTED: coloc is set only by load, so save raises AttributeError on every other context (also after reset), with the record half overwritten. Proved: save succeeds exactly when the nine attributes exist.",
"C104": "REFUTED: memmap is never set by the class, so both raise AttributeError and change nothing. Proved when a caller adds memmap and log, with the exact conditions under which the methods return and that a failing call changes nothing.",
"C105": "REFUTED: the code list is shared, so appending to context.code changes the saved record. Proved: reset after save does not (it makes a new list).",
"C108": "REFUTED: the classes have __getitem__ but no __iter__, and an index beyond the end raises ValueError instead of IndexError, so list(field) always raises ValueError (as does list(register)). Proved: the loop body sees all bits in order before the exception when bits are numbered from 0, and nothing at all when they are numbered from 1; 'x in field' answers True when such a bit is found and raises otherwise; reversed works exactly for numbering from 0.",
"C110": "REFUTED: bool(field) is computed from len, so every field of positive width is true, also with value 0. Proved: len, int and index.",
"C111": "REFUTED: iterating a module ends in KeyError after the last bank; 'v in bank' is False for every int (it compares Word objects) and exhausts the bank's iterator. Proved: the banks seen before the exception, membership of Word objects, and reversed for modules, banks and groups.",
"C113": "REFUTED: the table is modified in place; in a file called simple.* a DEC and an EQUALS card for the same symbol raise KeyError and leave the first definition in the caller's table. Proved: the table (and the assembler) is unchanged when the file cannot be read; a failure after that only happens at an EQUALS card when a segment is called simple or complex, and then only definitions made by the cards before it differ; for a table built from files the table left holds exactly the definitions in force (C194) just before the refused EQUALS.",
"C115": "REFUTED: RecordType is not defined in the module, so str(context) never returns. Proved: it raises NameError exactly when the attributes used before that exist and the line numbers are integers.",
"C116": "REFUTED: with --begin nothing is printed when no symbol matches. Proved for the exact match: either the definitions are printed or the error line.",
"C122": "REFUTED: Instruction.__init__ prints a debugging line (opcode, sequence, mask, a, b, c, paddr) on stdout for every object made. Proved: the exact line, that it is also printed when the arguments are rejected with ValueError, and that nothing is printed exactly when the call itself is wrong (TypeError, NameError).",
"C126": "REFUTED: a third word such as -5 is taken for an option letter, so counting down is always a usage error. Proved: with -- in front of the numbers it prints START, START-STEP, ... down to END (or the last number above END-STEP), and step 0 raises ValueError.",
"C134": "REFUTED: every further run succeeds and appends one more section card with all the page headings; the n-th file is characterised exactly. Proved: all runs append the same text as the first when the source has a section card, or when the name taken from the '# Filename:' line has no outer blanks and at most 73 characters.",
"C143": "REFUTED: the main functions return nothing, so check-instructions and check-symbols end with status 0 whatever number of errors they report. Proved: status 0 whenever every source can be read (with --count if there is an instruction card), status 1 or the traceback of the exception when one cannot, for listing what each status means for the listings written.",
"C153": "REFUTED: the step is never looked at: a bank slice with a step of 2 or more reads and overwrites every cell in between, a slice of a module contains every bank in between, and a slice of a field or a register reads and writes the whole range whatever the step. Proved: register groups and the register file refuse every slice with ValueError and change nothing; a step of 1 selects the same positions as none.",
"C170": "REFUTED: list-instructions takes the blanks out of the operation, check-instructions does not, so a card with the operation D A is found as DA but counted as an error and not as DA. Proved: the numbers agree whenever no operation has white space before its first comma. Exactly: the numbers differ by the cards of the mnemonic written with blanks, less those written with other white space.",
"C171": "REFUTED: getAbsoluteSymbols never resets the flag that stops the search, so after the first hit a symbol whose least segment has only a complex definition is left out of the choices of both tools. Proved: with files of one segment the choices are exactly the symbols with a simple definition; C161 gives the exact choices in general.",
"C175": "REFUTED: code 54 (octal) has no character in CHARSET, Table I gives it the asterisk, and no other code gives an asterisk. Proved: every other character has exactly the codes of Table I.",
"C177": "REFUTED: every link tag and out-of-sequence tag (L,X and X,X, and X, alone) is counted as an error; and location fields that are no tags - digits only, more than eight characters, with a plus sign - are accepted without a word. Proved: all the other tags of the manual (symbolic, mask, special register) are accepted and their names become symbols, and the errors counted are at most the lines with no tag, a link or out-of-sequence tag, or no command code.",
"C178": "REFUTED: after a SETLOC without a number the symbols go to subsegment 0, which the manual does not have, and after SETLOC,nC to a subsegment of the name nC. Proved: where every SETLOC is written SETLOC,n with n from 1 to 7, a symbol is recorded in a subsegment exactly if a line that defines it is in that subsegment by the manual.",
"C179": "REFUTED: only ASSIGN is looked for: a tag on a TAS line is recorded as simple in every source, never as complex because of it. Proved: in sources without TAS a symbol is recorded as complex, and as simple, exactly as the manual has it.",
"C180": "REFUTED: check-instructions reports every processed line with a blank within the mnemonic as an invalid instruction, whatever the mnemonic is. Proved: list-instructions finds corresponding lines in sources that differ in blanks within the operations only.",
"C181": "REFUTED: every line that calls a macro routine (L,name or P,name), gives test data (X, D) or has a LAMP code is reported. Proved: the other codes of the manual are known; besides them only EBA, EBS, FCON, COREDUMP and DUMP; a source has no complaint exactly if its processed lines have these codes only.",
 "C184": "REFUTED: the column is read as a part of the operation; every instruction without a comma and with an S or a C in it is reported as invalid (C184_check_refuted) and not found (C184_list_refuted). Proved in part: where a comma ends the mnemonic before that column, two sources that differ in it get the same complaints and the same lines are found.",
 "C187": "REFUTED: the class Simulator takes no address, and no class makes a simulator code other than 7 and 4007 octal (C187_simulator_refuted). Proved: every code made shows a line of the table with zeros at the irrelevant places, masked exactly if a mask was given; every code that shows a line so is made by a class of that mnemonic.",
"C199": "REFUTED: b[i] = 0.5 clears the bit, b.value = 3.5 stores 3 (also through a word), b.set(0.0) and b.set('') set every bit, and BitField(2.5) is accepted; it then holds a float, every read of bits raises TypeError or ValueError, and only value, set() and clear() bring it back. Proved: every call with arguments of any type either is exactly one given call with integers or raises and changes nothing, so a field made with an integer holds one for ever; every read with a key that is not made of integers raises; a word is never made from anything but an integer.",
"C200": "REFUTED: a float equal to an address reads and writes that word, and a float from 0 to 2^48 - 1 is stored as its whole part. Proved: every call with arguments of any type is exactly one given call with integers, or raises and changes nothing (an assignment to an empty range does neither), so that the words of a bank hold integers for ever. Modules: a float equal to the number of a bank gives that bank; every other key that is no integer or range of integers raises.",
"C204": "REFUTED: every float up to 64 is accepted as width, 7.5 as well as 8.0, if the value is not above 2 ** width - 1. Proved of every such field: range assignments and the clearing of a bit always raise and change nothing; a bit can be set only where the positions are counted from the least significant bit on the left, and there exactly below the width; after any history the width and the maximum are the same and the value is an integer or, after set(), the float maximum, with which no item can be read or written; indices, lsb, msb, len and bool raise TypeError.",
}
