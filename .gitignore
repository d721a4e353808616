*.vo
*.vok
*.vos
*.glob
*.aux
.*.cache
*.cache
rocq/Makefile
rocq/Makefile.conf
rocq/.Makefile.d
.lia.cache
.nra.cache
