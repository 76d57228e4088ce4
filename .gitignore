*.vo
*.vos
*.vok
*.glob
*.aux
.*.aux
.*.cache
.lia.cache
.nra.cache
.nia.cache
rocq/Makefile
rocq/Makefile.conf
rocq/.Makefile.d
