import json,sys
for l in open('/verif/properties.jsonl'):
    d=json.loads(l)
    if d['id'] in sys.argv[1:]: print(d['id'],d['title'],'\n  ',d['statement'],'\n  Q:',d['quantifier'],'\n  A:',d['anchors'],'\n')
