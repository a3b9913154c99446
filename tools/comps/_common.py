import re
def classes(path, skip=(), **kw):
    """All explicit components of one file, in source order."""
    src = open('/repo/aviary/' + path).read()
    return [dict(file=path, cls=c, **kw) for c in re.findall(r'^class (\w+)\(om\.ExplicitComponent\)', src, re.M) if c not in skip]
