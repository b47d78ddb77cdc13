PARTIAL = {}
NA = {}
NOTES = {
 'C04': 'in_clip is the documented half-open rectangle',
 'C05': 'false as an unconditional statement (refuted by witness); exact set of changed pixels and the exact condition for containment are proved',
 'C06': 'false as an unconditional statement (refuted by witness); exact panic condition proved',
 'C09': 'with guards on cursor range and clip; for every clip the exact condition for a panic is proved (C09_panics_exactly); inputs that panic are exhibited by a _refuted theorem',
 'C10': 'for clips at least 33 wide; narrower clips and wrapping cursors refuted by witnesses',
 'C19': 'conditions on the seam, the end of s2 and the bottom edge are needed (refuted by witnesses)',
 'C31': 'false as stated (witnesses for the Latin and emoji fonts); for the Latin and hanzi fonts the complete list of exceptions is proved',
 'C33': 'stronger than listed: in any surrounding text over the Latin index',
 'C21': 'false for a trailing unknown character (refuted by witness; the exact repeat count is proved)',
 'C14': 'clips at least 36 wide, and with the retries of narrow clips for every clip that xor_char accepts',
 'C76': 'the screen holds any 144 known characters, but not any 145 (refuted by a witness)',
 'C80': 'not all of the rows: text after a glyph whose top is below the edge is not shown (refuted by a witness)',
 'C84': 'a row more does not suffice (refuted by a witness)',
 'C82': 'that all ink is left of the new edge does not suffice (refuted by a witness); the padding counts',
 'C79': 'a clip whose right edge is a multiple of 32 makes clear_region panic or clear 32 columns beside it (refuted by a witness)',
 'C22': 'proved for known clusters in clips at least 36 wide; false for unknown characters below the clip and for narrow clips (refuted by witnesses, the cursor in a narrow clip is given exactly)',
 'C41': 'a matrix without ink can panic (refuted by witness; the panic condition is proved)',
 'C49': 'the comments are wrong (refuted by witness); the actual order is proved',
 'C54': 'false as stated: names separated by more than one space, or by a tab, are dropped (refuted by witness); proved for one space',
 'C56': 'U+A9 and U+AE are painted as emoji in every style (refuted by witness); proved for all other Latin clusters',
 'C57': 'for notices that are comments and names that are words (otherwise refuted by witness)',
 'C58': 'byte for byte for the three Latin files; the emoji and hanzi files as constants',
 'C63': 'false in two details (refuted by witnesses): a newline moves the cursor one row further than the height of the line, and glyphs that would leave less than 2 columns free are wrapped too; the rest is proved',
 'C62': 'false as stated: 43 texts of three characters (for example a, space, U+778D) are painted as one keycap emoji (refuted by witnesses, complete list proved); proved for all other texts of the Latin and hanzi indexes',
 'C64': 'for images that are not interlaced, with up to 8 bits per sample and no tRNS chunk',
 'C65': 'the two larger sheets as any files with their pixels',
 'C61': 'for clusters without newlines (otherwise refuted by witness)',
}
