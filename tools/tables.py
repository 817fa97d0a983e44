"""Compare the constant tables of the model with the source, read as text:
python3 tools/tables.py /repo.  Prints one line per table and exits with 1 if
one differs."""
import os, re, sys

root = os.path.dirname(os.path.dirname(os.path.abspath(__file__)))
repo = sys.argv[1] if len(sys.argv) > 1 else '/repo'
theory = lambda n: open(os.path.join(root, 'rocq/theories', n + '.v')).read()
source = lambda n: open(os.path.join(repo, 'src', n)).read()
failed = False

def check(name, mine, theirs):
    global failed
    same = mine == theirs and len(mine) > 0
    failed |= not same
    print('same' if same else 'DIFFERENT', name, len(mine))
    if not same:
        for a, b in zip(mine, theirs):
            if a != b:
                print('  ', a, b)

def number(t):
    t = t.strip().replace('_', '')
    m = re.fullmatch(r'1\s*<<\s*(\d+)', t)
    return 1 << int(m.group(1)) if m else int(t, 0)

def constants(text):
    """The constants of a flag type: name, value text, cfg, in order."""
    found, cfg = [], 'Always'
    for line in text.split('\n'):
        line = line.strip()
        if line.startswith('#[cfg'):
            assert 'not(' not in line
            cfg = 'Since42' if 'version-4-2' in line else 'Since50'
        m = re.match(r'const (\w+) = (.*);$', line)
        if m:
            found.append((m.group(1), m.group(2), cfg))
            cfg = 'Always'
    return found

def body(text, header):
    start = text.index(header) + len(header)
    depth = 1
    for i in range(start, len(text)):
        depth += {'{': 1, '}': -1}.get(text[i], 0)
        if depth == 0:
            return text[start:i]

flags, names = theory('Model_Bitflags'), theory('Model_FlagNames')
def model_names(table):
    t = re.search(r'Definition %s_names[^=]*:=\s*\[(.*?)\]' % table, names, re.S).group(1)
    return re.findall(r'"(\w+)"', t)

for table, file, header in [
        ('LinkLayerFeature', 'lib.rs', 'pub struct LinkLayerFeature : u64 {'),
        ('LmpFeatures', 'event/command.rs', 'pub struct LmpFeatures : u64 {'),
        ('LeFeatures', 'event/command.rs', 'pub struct LeFeatures : u64 {'),
        ('LeStates', 'event/command.rs', 'pub struct LeStates : u64 {'),
        ('EventFlags', 'host/mod.rs', 'pub struct EventFlags : u64 {'),
        ('LeEventFlags', 'host/mod.rs', 'pub struct LeEventFlags : u64 {'),
        ('Channels', 'host/mod.rs', 'pub struct Channels : u8 {')]:
    text = re.sub(r'\s*:\s*(u\d+)', r' : \1', source(file))
    theirs = [(n, number(v), c) for n, v, c in constants(body(text, header))]
    decl = re.search(r'Definition %s : flag_decl :=(.*?)\]\.' % table, flags, re.S).group(1)
    mine = [(n, 1 << int(b), c) for b, c, n in
            re.findall(r'\((\d+), (\w+)\);? \(\* (\w+),', decl)]
    check(table, mine, theirs)
    check(table + ' names', model_names(table), [n for n, _, _ in theirs])

for table, file, header in [
        ('ChannelClassification', 'lib.rs', 'pub struct ChannelFlag;'),
        ('CommandFlags', 'event/command.rs', 'pub struct CommandFlag;')]:
    theirs = []
    for n, v, c in constants(body(source(file), header)):
        octet, mask = v.split(',')
        theirs.append((n, int(octet), number(mask), c))
    decl = re.search(r'Definition %s_decl : array_decl :=(.*?)\]\.' % table, flags, re.S).group(1)
    mine = [(n, int(o), int(m, 0), c) for o, m, c, n in
            re.findall(r'\((\d+)%nat, (\w+), (\w+)\);? \(\* (\w+),', decl)]
    check(table, mine, theirs)
    check(table + ' names', model_names(table), [n for n, *_ in theirs])

types = theory('Model_Types')
mine = [(n, int(g, 0), int(o, 0)) for n, g, o in
        re.findall(r'Definition (\w+) : opcode := opcode_new (\w+) (\w+)\.', types)]
theirs, ogf = [], None
for line in source('opcode.rs').split('\n'):
    m = re.match(r'\s+\w+ = (0x\w+);', line)
    if m:
        ogf = int(m.group(1), 0)
    m = re.match(r'\s+pub const (\w+) = (0x\w+);', line)
    if m:
        theirs.append((m.group(1), ogf, int(m.group(2), 0)))
check('opcodes', mine, theirs)

lib = source('lib.rs')
reading = lib[lib.index('fn try_from(value: u8) -> Result<Status<V>'):lib.index('Into<u8> for Status<V>')]
theirs = [(int(c, 0), n) for c, n in
          re.findall(r'(0x\w+) => (?:\{\s*#\[cfg\(feature = "version-5-0"\)\]\s*\{\s*)?Ok\(Status::(\w+)\)', reading)]
text = types[types.index('Definition status_try_from'):types.index('Definition status_into')]
mine = [(int(c, 0), n) for c, n in re.findall(r'(0x\w+) => (?:if version_5_0 f then )?Ok (\w+)', text)]
check('Status from byte', mine, theirs)
writing = lib[lib.index('Into<u8> for Status<V>'):]
theirs = [(n, int(c, 0)) for n, c in re.findall(r'Status::(\w+) => (0x\w+)', writing)]
text = types[types.index('Definition status_into'):]
mine = [(n, int(c, 0)) for n, c in re.findall(r'\| (\w+) => (?:if version_5_0 f then )?(0x\w+)', text)]
check('Status to byte', mine, theirs)
sys.exit(failed)
