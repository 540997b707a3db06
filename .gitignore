*.vo
*.vos
*.vok
*.glob
*.aux
.*.aux
rocq/Makefile
rocq/Makefile.conf
rocq/.Makefile.d
.nia.cache
.nra.cache
.lia.cache
.nra.cache
__pycache__/
